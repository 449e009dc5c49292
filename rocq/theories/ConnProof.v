(** * Lemmas about goroutines sharing a client *)
From Verif Require Import GoBase EipModel EipSpec EipProof ConnModel ConnSpec.

(** ** Status *)

Lemma set_nth_split {A} (l : list A) : forall t x, nth_error l t = Some x ->
  exists l1 l2, l = l1 ++ x :: l2 /\ forall y, set_nth t y l = l1 ++ y :: l2.
Proof.
  induction l as [|a l IH]; intros [|t] x H; try discriminate.
  - injection H as ->. exists [], l. split; [reflexivity|]. reflexivity.
  - destruct (IH t x H) as (l1 & l2 & E & K). exists (a :: l1), l2. split; [now rewrite E|].
    intros y. cbn [set_nth app]. now rewrite K.
Qed.

Lemma progress_split l1 (x : list call) l2 :
  filter past_entry (concat (l1 ++ x :: l2)) =
  filter past_entry (concat l1) ++ filter past_entry x ++ filter past_entry (concat l2).
Proof. rewrite concat_app. cbn [concat]. now rewrite !filter_app. Qed.

Lemma link_app l : forall on on' l', link on l = Some on' -> link on (l ++ l') = link on' l'.
Proof.
  induction l as [|[c ok] l IH]; intros on on' l' H.
  - injection H as ->. reflexivity.
  - cbn [app link] in *. destruct c as [[]|[]|]; destruct ok; destruct on; try discriminate; eauto.
Qed.

Definition status_inv (sh : shared) : Prop :=
  exists on, link false (sh_returned sh) = Some on /\
  ((sh_status sh = disconnected /\ in_progress sh = [] /\ on = false) \/
   (sh_status sh = connecting /\ in_progress sh = [CConnect Inside] /\ on = false) \/
   (sh_status sh = connected /\ in_progress sh = [] /\ on = true) \/
   (sh_status sh = disconnecting /\ in_progress sh = [CDisconnect Inside] /\ on = true)).

Lemma app3_single {A} (a b c : list A) x y : a ++ (x :: b) ++ c = [y] -> x = y /\ a = [] /\ b = [] /\ c = [].
Proof.
  destruct a as [|a0 a]; cbn [app].
  - intros [= E E']. subst. destruct b; [|discriminate]. destruct c; [|discriminate]. auto.
  - intros [= E E']. destruct a; discriminate.
Qed.
Lemma app3_nil {A} (a b c : list A) x : a ++ (x :: b) ++ c = [] -> False.
Proof. destruct a; discriminate. Qed.

Lemma run_move_inv sh t m sh' : status_inv sh -> run_move sh t m = Some sh' -> status_inv sh'.
Proof.
  intros (on & L & I) H. unfold run_move in H.
  destruct (nth_error (sh_threads sh) t) as [stack|] eqn:En; [|discriminate].
  destruct (set_nth_split _ _ _ En) as (l1 & l2 & E & K). cbv zeta in H.
  unfold status_inv, in_progress in *. rewrite E, progress_split in I.
  destruct m as [[[]|[]|]| | |ok]; destruct stack as [|[[]|[]|] r]; try discriminate.
  (* a new call *)
  - injection H as <-. cbn [sh_status sh_threads sh_returned]. rewrite app_nil_r. exists on. split; [exact L|].
    rewrite K, progress_split. exact I.
  - injection H as <-. cbn [sh_status sh_threads sh_returned]. rewrite app_nil_r. exists on. split; [exact L|].
    rewrite K, progress_split. exact I.
  - injection H as <-. cbn [sh_status sh_threads sh_returned]. rewrite app_nil_r. exists on. split; [exact L|].
    rewrite K, progress_split. exact I.
  (* Connect's entry check *)
  - change (filter past_entry (CConnect Enter :: r)) with (filter past_entry r) in I.
    unfold start_connect in H.
    destruct I as [(S & P & O)|[(S & P & O)|[(S & P & O)|(S & P & O)]]]; rewrite S in H; cbn in H; injection H as <-;
      cbn [sh_status sh_threads sh_returned]; rewrite ?app_nil_r.
    + exists on. split; [exact L|]. right. left. rewrite K, progress_split.
      change (filter past_entry (CConnect Inside :: r)) with (CConnect Inside :: filter past_entry r).
      apply app_eq_nil in P as (P1 & P2). apply app_eq_nil in P2 as (P2 & P3). rewrite P1, P2, P3. repeat split; auto.
    + exists on. split; [rewrite (link_app _ _ _ _ L); reflexivity|]. rewrite K, progress_split. auto 10.
    + exists on. split; [rewrite (link_app _ _ _ _ L); reflexivity|]. rewrite K, progress_split. auto 10.
    + exists on. split; [rewrite (link_app _ _ _ _ L); reflexivity|]. rewrite K, progress_split. auto 10.
  (* Disconnect's entry check *)
  - change (filter past_entry (CDisconnect Enter :: r)) with (filter past_entry r) in I.
    unfold start_disconnect in H.
    destruct I as [(S & P & O)|[(S & P & O)|[(S & P & O)|(S & P & O)]]]; rewrite S in H; cbn in H; injection H as <-;
      cbn [sh_status sh_threads sh_returned]; rewrite ?app_nil_r.
    + exists on. split; [rewrite (link_app _ _ _ _ L); reflexivity|]. rewrite K, progress_split. auto 10.
    + exists on. split; [rewrite (link_app _ _ _ _ L); reflexivity|]. rewrite K, progress_split. auto 10.
    + exists on. split; [exact L|]. right. right. right. rewrite K, progress_split.
      change (filter past_entry (CDisconnect Inside :: r)) with (CDisconnect Inside :: filter past_entry r).
      apply app_eq_nil in P as (P1 & P2). apply app_eq_nil in P2 as (P2 & P3). rewrite P1, P2, P3. repeat split; auto.
    + exists on. split; [rewrite (link_app _ _ _ _ L); reflexivity|]. rewrite K, progress_split. auto 10.
  (* a failing request *)
  - injection H as <-. cbn [sh_status sh_threads sh_returned]. rewrite app_nil_r. exists on. split; [exact L|].
    rewrite K, progress_split. exact I.
  - injection H as <-. cbn [sh_status sh_threads sh_returned]. rewrite app_nil_r. exists on. split; [exact L|].
    rewrite K, progress_split. exact I.
  - injection H as <-. cbn [sh_status sh_threads sh_returned]. rewrite app_nil_r. exists on. split; [exact L|].
    rewrite K, progress_split. exact I.
  (* Connect returns *)
  - change (filter past_entry (CConnect Inside :: r)) with (CConnect Inside :: filter past_entry r) in I.
    injection H as <-. cbn [sh_status sh_threads sh_returned]. rewrite K, progress_split.
    destruct I as [(S & P & O)|[(S & P & O)|[(S & P & O)|(S & P & O)]]].
    + now apply app3_nil in P.
    + apply app3_single in P as (_ & P1 & P2 & P3). rewrite P1, P2, P3. exists ok.
      rewrite (link_app _ _ _ _ L), O. destruct ok; (split; [reflexivity|]); auto 10.
    + now apply app3_nil in P.
    + apply app3_single in P as (X & _). discriminate.
  (* Disconnect returns *)
  - change (filter past_entry (CDisconnect Inside :: r)) with (CDisconnect Inside :: filter past_entry r) in I.
    injection H as <-. cbn [sh_status sh_threads sh_returned]. rewrite K, progress_split.
    destruct I as [(S & P & O)|[(S & P & O)|[(S & P & O)|(S & P & O)]]].
    + now apply app3_nil in P.
    + apply app3_single in P as (X & _). discriminate.
    + now apply app3_nil in P.
    + apply app3_single in P as (_ & P1 & P2 & P3). rewrite P1, P2, P3. exists false.
      rewrite (link_app _ _ _ _ L), O. destruct ok; (split; [reflexivity|]); auto 10.
  (* a request returns *)
  - change (filter past_entry (CRequest :: r)) with (filter past_entry r) in I.
    injection H as <-. cbn [sh_status sh_threads sh_returned]. rewrite K, progress_split. exists on.
    split; [|exact I]. rewrite (link_app _ _ _ _ L). destruct ok; reflexivity.
Qed.

Lemma run_moves_inv ms : forall sh sh', status_inv sh -> run_moves sh ms = Some sh' -> status_inv sh'.
Proof.
  induction ms as [|[t m] ms IH]; intros sh sh' I H; cbn [run_moves] in H.
  - now injection H as <-.
  - destruct (run_move sh t m) as [sh1|] eqn:E; [|discriminate].
    eapply IH; [|exact H]. eapply run_move_inv; eauto.
Qed.

Lemma shared0_inv n : status_inv (shared0 n).
Proof.
  exists false. split; [reflexivity|]. left. split; [reflexivity|]. split; [|reflexivity].
  unfold in_progress, shared0. cbn [sh_threads]. induction n; cbn; auto.
Qed.

(** ** Requests and replies *)

Lemma frame_length f : List.length (frame_bytes f) = (24 + List.length (f_payload f))%nat.
Proof. rewrite frame_split, app_length, header_bytes_length. reflexivity. Qed.

Lemma header_part_of f : frame_ok f -> header_of (header_bytes (header_part f)) = header_part f.
Proof.
  intros (Hc & Hs & Hst & Hcx & Ho & Hl). pose proof (len_nonneg (f_payload f)).
  apply header_of_bytes; cbn; lia.
Qed.

(** Enough bytes of a frame to know its length: the size is right. *)
Lemma prefix_size f a x : frame_ok f -> frame_bytes f = a ++ x -> (24 <= List.length a)%nat ->
  (24 + Z.to_nat (eh_length (header_of (firstn 24 a))))%nat = (List.length a + List.length x)%nat.
Proof.
  intros Hf E L.
  assert (X : firstn 24 a = header_bytes (header_part f)).
  { assert (Y : firstn 24 (frame_bytes f) = firstn 24 (a ++ x)) by now rewrite E.
    rewrite frame_split, (firstn_app_exact (header_bytes _)) in Y by apply header_bytes_length.
    rewrite firstn_app in Y. replace (24 - List.length a)%nat with O in Y by lia.
    change (firstn 0 x) with (@nil Z) in Y. rewrite app_nil_r in Y. congruence. }
  rewrite X, (header_part_of f Hf). cbn [header_part eh_length].
  assert (Y := f_equal (@List.length Z) E). rewrite frame_length, app_length in Y. unfold len. lia.
Qed.

Lemma complete_whole b a x : is_frame b -> b = a ++ x -> complete a = true -> x = [].
Proof.
  intros (f & Hf & ->) E C. unfold complete in C. apply andb_prop in C as (C1 & C2).
  apply Nat.leb_le in C1. apply Nat.eqb_eq in C2. unfold wants_more in C2.
  destruct (Nat.ltb_spec (List.length a) 24) as [|_]; [lia|].
  rewrite (prefix_size f a x Hf E C1) in C2. destruct x; [reflexivity|cbn [List.length] in C2; lia].
Qed.

Definition pairs (l : list (nat * bytes * bytes)) : list (bytes * bytes) := map (fun '(_, f, g) => (f, g)) l.

(** How far the exchange of request [f] is: [rest] still to be written by the
    client, [got] read by it. *)
Definition exchange_inv {S} (n : net S) (f rest got : bytes) : Prop :=
  is_frame f /\
  ((n_in n ++ n_up n ++ rest = f /\ got = [] /\ n_down n = [] /\ n_out n = [] /\ n_served n = pairs (n_done n)) \/
   (n_in n = [] /\ n_up n = [] /\ rest = [] /\
    exists r, is_frame r /\ got ++ n_down n ++ n_out n = r /\ n_served n = pairs (n_done n) ++ [(f, r)])).

Definition net_inv {S} (n : net S) : Prop :=
  match n_mutex n with
  | None => n_up n = [] /\ n_down n = [] /\ n_in n = [] /\ n_out n = [] /\ n_served n = pairs (n_done n) /\
            forall u, match n_pcs n u with Idle => True | Wants f => is_frame f | _ => False end
  | Some t => match n_pcs n t with
              | Sends f rest => exchange_inv n f rest []
              | Reads f got => exchange_inv n f [] got
              | _ => False
              end /\
              forall u, u <> t -> match n_pcs n u with Idle => True | Wants f => is_frame f | _ => False end
  end.

Lemma set_pc_same pcs t p : set_pc pcs t p t = p.
Proof. unfold set_pc. now rewrite Nat.eqb_refl. Qed.
Lemma set_pc_other pcs t p u : u <> t -> set_pc pcs t p u = pcs u.
Proof. intros H. unfold set_pc. destruct (Nat.eqb_spec u t); [contradiction|reflexivity]. Qed.

Lemma pairs_app a b : pairs (a ++ b) = pairs a ++ pairs b.
Proof. apply map_app. Qed.

(** The goroutine that is sending or reading is the one with the mutex. *)
Lemma holder {S} (n : net S) t : net_inv n ->
  match n_pcs n t with Sends _ _ | Reads _ _ => n_mutex n = Some t | _ => True end.
Proof.
  intros I. unfold net_inv in I. destruct (n_mutex n) as [h|] eqn:Em.
  - destruct I as (Ih & Io). destruct (Nat.eq_dec t h) as [->|Hn].
    + destruct (n_pcs n h); auto.
    + specialize (Io t Hn). destruct (n_pcs n t); auto; contradiction.
  - destruct I as (_ & _ & _ & _ & _ & I). specialize (I t). destruct (n_pcs n t); auto; contradiction.
Qed.

Lemma run_act_inv {S} (sv : service S) n a n' :
  (forall s f, is_frame (fst (sv s f))) -> no_timeout a -> calls_frames a ->
  net_inv n -> run_act sv n a = Some n' -> net_inv n'.
Proof.
  intros Hsv Hnt Hcf I H. destruct a as [t f|t|t k|t|t k|t|t|k| |k]; cbn [run_act no_timeout calls_frames] in *; try contradiction.
  - (* ACall *)
    destruct (n_pcs n t) eqn:Et; try discriminate. injection H as <-.
    unfold net_inv in *. cbn [n_mutex n_pcs n_up n_down n_in n_out n_served n_done].
    destruct (n_mutex n) as [h|].
    + destruct I as (Ih & Io). assert (h <> t) as Hne by (intros ->; rewrite Et in Ih; contradiction).
      rewrite set_pc_other by auto. split; [exact Ih|].
      intros u Hu. destruct (Nat.eq_dec u t) as [->|Hut]; [rewrite set_pc_same; exact Hcf|].
      rewrite set_pc_other by auto. now apply Io.
    + destruct I as (I1 & I2 & I3 & I4 & I5 & I6). repeat split; auto.
      intros u. destruct (Nat.eq_dec u t) as [->|Hut]; [rewrite set_pc_same; exact Hcf|].
      rewrite set_pc_other by auto. apply I6.
  - (* ALock *)
    destruct (n_pcs n t) as [|f| |] eqn:Et; try discriminate. destruct (n_mutex n) eqn:Em; [discriminate|].
    injection H as <-. unfold net_inv in *. cbn [n_mutex n_pcs]. rewrite Em in I.
    destruct I as (I1 & I2 & I3 & I4 & I5 & I6). rewrite set_pc_same. split.
    + split; [specialize (I6 t); now rewrite Et in I6|]. left. cbn [n_in n_up n_down n_out n_served n_done].
      rewrite I1, I3. auto.
    + intros u Hu. rewrite set_pc_other by auto. apply I6.
  - (* AWrite *)
    destruct (n_pcs n t) as [| |f rest|] eqn:Et; try discriminate. injection H as <-.
    pose proof (holder n t I) as Hh. rewrite Et in Hh. unfold net_inv in *. cbn [n_mutex n_pcs]. rewrite Hh in *.
    rewrite Et in I. rewrite set_pc_same. destruct I as ((Ff & Ie) & Io). split.
    + split; [exact Ff|]. cbn [n_in n_up n_down n_out n_served n_done].
      destruct Ie as [(E & E1 & E2 & E3 & E4)|(E1 & E2 & E3 & r & Fr & Er & Es)].
      * left. repeat split; auto. rewrite <- app_assoc, firstn_skipn. exact E.
      * right. subst rest. rewrite firstn_nil, skipn_nil, app_nil_r. repeat split; auto. eauto.
    + intros u Hu. rewrite set_pc_other by auto. now apply Io.
  - (* ASent *)
    destruct (n_pcs n t) as [| |f [|x rest]|] eqn:Et; try discriminate. injection H as <-.
    pose proof (holder n t I) as Hh. rewrite Et in Hh. unfold net_inv in *. cbn [n_mutex n_pcs]. rewrite Hh in *.
    rewrite Et in I. rewrite set_pc_same. destruct I as (Ie & Io). split; [exact Ie|].
    intros u Hu. rewrite set_pc_other by auto. now apply Io.
  - (* ARead *)
    destruct (n_pcs n t) as [| | |f got] eqn:Et; try discriminate. cbv zeta in H. injection H as <-.
    set (k' := Nat.min k (wants_more got)). clearbody k'.
    pose proof (holder n t I) as Hh. rewrite Et in Hh. unfold net_inv in *. cbn [n_mutex n_pcs]. rewrite Hh in *.
    rewrite Et in I. rewrite set_pc_same. destruct I as ((Ff & Ie) & Io). split.
    + split; [exact Ff|]. cbn [n_in n_up n_down n_out n_served n_done].
      destruct Ie as [(E & E1 & E2 & E3 & E4)|(E1 & E2 & E3 & r & Fr & Er & Es)].
      * left. rewrite E1, E2, firstn_nil, skipn_nil. repeat split; auto.
      * right. repeat split; auto. exists r. split; [exact Fr|]. split; [|exact Es].
        rewrite <- app_assoc. rewrite (app_assoc (firstn k' (n_down n))), firstn_skipn. exact Er.
    + intros u Hu. rewrite set_pc_other by auto. now apply Io.
  - (* AReturn *)
    destruct (n_pcs n t) as [| | |f got] eqn:Et; try discriminate.
    destruct (complete got) eqn:Ec; [|discriminate]. injection H as <-.
    pose proof (holder n t I) as Hh. rewrite Et in Hh. unfold net_inv in *. cbn [n_mutex n_pcs n_up n_down n_in n_out n_served n_done].
    rewrite Hh in I. rewrite Et in I. destruct I as ((Ff & Ie) & Io).
    destruct Ie as [(E & E1 & E2 & E3 & E4)|(E1 & E2 & E3 & r & Fr & Er & Es)].
    { subst got. discriminate. }
    assert (Z : n_down n ++ n_out n = []) by (eapply complete_whole; [exact Fr|symmetry; exact Er|exact Ec]).
    apply app_eq_nil in Z as (Z1 & Z2). repeat split; auto.
    + rewrite pairs_app, Es. cbn [pairs map]. rewrite Z1, Z2, !app_nil_r in Er. now subst.
    + intros u. destruct (Nat.eq_dec u t) as [->|Hu]; [now rewrite set_pc_same|].
      rewrite set_pc_other by auto. now apply Io.
  - (* CTake *)
    injection H as <-. unfold net_inv in *. cbn [n_mutex n_pcs n_up n_down n_in n_out n_served n_done].
    destruct (n_mutex n) as [h|].
    + destruct I as (Ih & Io). split; [|exact Io].
      assert (T : forall f rest got, exchange_inv n f rest got ->
                  exchange_inv (Net (n_pcs n) (Some h) (skipn k (n_up n)) (n_down n) (n_in n ++ firstn k (n_up n)) (n_out n) (n_state n) (n_served n) (n_done n)) f rest got).
      { intros f rest got (Ff & Ie). split; [exact Ff|]. cbn [n_in n_up n_down n_out n_served n_done].
        destruct Ie as [(E & E1 & E2 & E3 & E4)|(E1 & E2 & E3 & r & Fr & Er & Es)].
        - left. repeat split; auto. rewrite <- app_assoc. rewrite (app_assoc (firstn k (n_up n))), firstn_skipn. exact E.
        - right. rewrite E1, E2, firstn_nil, skipn_nil. repeat split; auto. eauto. }
      destruct (n_pcs n h); auto.
    + destruct I as (I1 & I2 & I3 & I4 & I5 & I6). rewrite I1, I3, firstn_nil, skipn_nil. repeat split; auto.
  - (* CServe *)
    cbv zeta in H. set (size := (24 + Z.to_nat (eh_length (header_of (firstn 24 (n_in n)))))%nat) in H.
    destruct ((24 <=? List.length (n_in n))%nat && (size <=? List.length (n_in n))%nat) eqn:Ec; [|discriminate].
    apply andb_prop in Ec as (C1 & C2). apply Nat.leb_le in C1, C2.
    pose proof (Hsv (n_state n) (firstn size (n_in n))) as Fr.
    destruct (sv (n_state n) (firstn size (n_in n))) as [r s'] eqn:Es. cbn [fst] in Fr. injection H as <-.
    unfold net_inv in *. cbn [n_mutex n_pcs n_up n_down n_in n_out n_served n_done].
    destruct (n_mutex n) as [h|].
    + destruct I as (Ih & Io). split; [|exact Io].
      assert (T : forall f rest got, exchange_inv n f rest got ->
                  exchange_inv (Net (n_pcs n) (Some h) (n_up n) (n_down n) (skipn size (n_in n)) (n_out n ++ r) s'
                                    (n_served n ++ [(firstn size (n_in n), r)]) (n_done n)) f rest got).
      { intros f rest got (Ff & Ie). split; [exact Ff|]. cbn [n_in n_up n_down n_out n_served n_done].
        destruct Ie as [(E & E1 & E2 & E3 & E4)|(E1 & E2 & _)].
        2:{ exfalso. rewrite E1 in C1. cbn in C1. lia. }
        destruct Ff as (fr & Hfr & ->). symmetry in E.
        pose proof (prefix_size fr _ _ Hfr E C1) as Sz. fold size in Sz.
        assert (X : n_up n ++ rest = []). { apply length_zero_iff_nil. lia. }
        assert (Xf : frame_bytes fr = n_in n) by (rewrite E, X; apply app_nil_r).
        apply app_eq_nil in X as (X1 & X2).
        assert (L0 : List.length (n_up n ++ rest) = 0%nat) by (rewrite X1, X2; reflexivity).
        right. rewrite firstn_all2 by lia. rewrite skipn_all2 by lia. repeat split; auto.
        exists r. split; [exact Fr|]. subst got. rewrite E2, E3. split; [reflexivity|]. now rewrite E4, Xf. }
      destruct (n_pcs n h); auto.
    + destruct I as (I1 & I2 & I3 & I4 & I5 & I6). rewrite I3 in C1. cbn in C1. lia.
  - (* CGive *)
    injection H as <-. unfold net_inv in *. cbn [n_mutex n_pcs n_up n_down n_in n_out n_served n_done].
    destruct (n_mutex n) as [h|].
    + destruct I as (Ih & Io). split; [|exact Io].
      assert (T : forall f rest got, exchange_inv n f rest got ->
                  exchange_inv (Net (n_pcs n) (Some h) (n_up n) (n_down n ++ firstn k (n_out n)) (n_in n) (skipn k (n_out n)) (n_state n) (n_served n) (n_done n)) f rest got).
      { intros f rest got (Ff & Ie). split; [exact Ff|]. cbn [n_in n_up n_down n_out n_served n_done].
        destruct Ie as [(E & E1 & E2 & E3 & E4)|(E1 & E2 & E3 & r & Fr & Er & Es)].
        - left. rewrite E2, E3, firstn_nil, skipn_nil. repeat split; auto.
        - right. repeat split; auto. exists r. split; [exact Fr|]. split; [|exact Es].
          rewrite <- (app_assoc (n_down n)), firstn_skipn. exact Er. }
      destruct (n_pcs n h); auto.
    + destruct I as (I1 & I2 & I3 & I4 & I5 & I6). rewrite I2, I4, firstn_nil, skipn_nil. repeat split; auto.
Qed.

Lemma run_acts_inv {S} (sv : service S) l : (forall s f, is_frame (fst (sv s f))) ->
  Forall no_timeout l -> Forall calls_frames l ->
  forall n n', net_inv n -> run_acts sv n l = Some n' -> net_inv n'.
Proof.
  intros Hsv. induction l as [|a l IH]; intros Ht Hc n n' I H; cbn [run_acts] in H.
  - now injection H as <-.
  - inversion Ht. inversion Hc. subst. destruct (run_act sv n a) as [n1|] eqn:E; [|discriminate].
    apply (IH ltac:(assumption) ltac:(assumption) n1 n'); [|exact H].
    now apply (run_act_inv sv n a n1).
Qed.

Lemma net0_inv {S} (s : S) : net_inv (net0 s).
Proof. cbn. repeat split; auto. Qed.

(** The requests of one goroutine: those returned, then the one under way. *)
Definition under_way (p : pc) : list bytes :=
  match p with Idle => [] | Wants f => [f] | Sends f _ => [f] | Reads f _ => [f] end.

Lemma asked_by_app t a b : asked_by t (a ++ b) = asked_by t a ++ asked_by t b.
Proof. unfold asked_by. now rewrite map_app, concat_app. Qed.
Lemma returned_to_app t a b : returned_to t (a ++ b) = returned_to t a ++ returned_to t b.
Proof. unfold returned_to. now rewrite map_app, concat_app. Qed.

Lemma run_act_asked {S} (sv : service S) n a n' t : no_timeout a -> run_act sv n a = Some n' ->
  returned_to t (n_done n') ++ under_way (n_pcs n' t) =
  (returned_to t (n_done n) ++ under_way (n_pcs n t)) ++ asked_by t [a].
Proof.
  intros Hnt H. unfold asked_by. cbn [map concat]. rewrite app_nil_r.
  destruct a as [u f|u|u k|u|u k|u|u|k| |k]; cbn [run_act no_timeout] in *; try contradiction.
  - destruct (n_pcs n u) eqn:Eu; try discriminate. injection H as <-. cbn [n_pcs n_done].
    rewrite (Nat.eqb_sym u t). unfold set_pc. destruct (Nat.eqb_spec t u) as [->|Hn].
    + rewrite Eu. cbn [under_way]. now rewrite app_nil_r.
    + now rewrite app_nil_r.
  - destruct (n_pcs n u) as [|f| |] eqn:Eu; try discriminate. destruct (n_mutex n); [discriminate|].
    injection H as <-. cbn [n_pcs n_done]. rewrite app_nil_r. unfold set_pc.
    destruct (Nat.eqb_spec t u) as [->|Hn]; [now rewrite Eu|reflexivity].
  - destruct (n_pcs n u) as [| |f rest|] eqn:Eu; try discriminate.
    injection H as <-. cbn [n_pcs n_done]. rewrite app_nil_r. unfold set_pc.
    destruct (Nat.eqb_spec t u) as [->|Hn]; [now rewrite Eu|reflexivity].
  - destruct (n_pcs n u) as [| |f [|]|] eqn:Eu; try discriminate.
    injection H as <-. cbn [n_pcs n_done]. rewrite app_nil_r. unfold set_pc.
    destruct (Nat.eqb_spec t u) as [->|Hn]; [now rewrite Eu|reflexivity].
  - destruct (n_pcs n u) as [| | |f got] eqn:Eu; try discriminate. cbv zeta in H.
    injection H as <-. cbn [n_pcs n_done]. rewrite app_nil_r. unfold set_pc.
    destruct (Nat.eqb_spec t u) as [->|Hn]; [now rewrite Eu|reflexivity].
  - destruct (n_pcs n u) as [| | |f got] eqn:Eu; try discriminate. destruct (complete got); [|discriminate].
    injection H as <-. cbn [n_pcs n_done]. rewrite returned_to_app, app_nil_r. unfold set_pc.
    destruct (Nat.eqb_spec t u) as [->|Hn].
    + rewrite Eu. cbn [under_way]. unfold returned_to at 2. cbn [map concat]. rewrite Nat.eqb_refl. now rewrite !app_nil_r.
    + unfold returned_to at 2. cbn [map concat]. destruct (Nat.eqb_spec u t); [congruence|]. now rewrite !app_nil_r.
  - injection H as <-. cbn [n_pcs n_done]. now rewrite app_nil_r.
  - cbv zeta in H. destruct (_ && _); [|discriminate]. destruct (sv _ _). injection H as <-.
    cbn [n_pcs n_done]. now rewrite app_nil_r.
  - injection H as <-. cbn [n_pcs n_done]. now rewrite app_nil_r.
Qed.

Lemma run_acts_asked {S} (sv : service S) t l : Forall no_timeout l -> forall n n', run_acts sv n l = Some n' ->
  returned_to t (n_done n') ++ under_way (n_pcs n' t) =
  (returned_to t (n_done n) ++ under_way (n_pcs n t)) ++ asked_by t l.
Proof.
  induction l as [|a l IH]; intros Ht n n' H; cbn [run_acts] in H.
  - injection H as <-. unfold asked_by. cbn. now rewrite app_nil_r.
  - inversion Ht. subst. destruct (run_act sv n a) as [n1|] eqn:E; [|discriminate].
    rewrite (IH H3 _ _ H), (run_act_asked sv n a n1 t H2 E). rewrite <- app_assoc.
    change (a :: l) with ([a] ++ l). now rewrite asked_by_app.
Qed.

(** ** Sequence counts *)

Definition same_source (a b : draw) : bool :=
  match a, b with FromProcess, FromProcess | FromClient, FromClient => true | _, _ => false end.
Definition drawn (d : draw) (ds : list draw) : Z := len (filter (same_source d) ds).
Definition source (d : draw) (st : Z * Z) : Z := match d with FromProcess => fst st | FromClient => snd st end.

Lemma draw_nth ds : forall st i d, nth_error ds i = Some d ->
  nth_error (draw_counts st ds) i = Some ((source d st + drawn d (firstn (S i) ds)) mod 65536).
Proof.
  induction ds as [|d0 ds IH]; intros [p c] i d H; [destruct i; discriminate|].
  destruct i as [|i].
  - injection H as <-. destruct d0; cbn [draw_counts draw_count nth_error firstn];
      unfold drawn, source; cbn [filter same_source fst snd]; change (len [_]) with 1; f_equal; lia.
  - cbn [nth_error] in H. cbn [draw_counts]. destruct (draw_count (p, c) d0) as [z st'] eqn:E.
    cbn [nth_error]. rewrite (IH st' i d H). f_equal.
    change (firstn (S (S i)) (d0 :: ds)) with (d0 :: firstn (S i) ds).
    unfold drawn. cbn [filter].
    destruct d0, d; cbn [same_source draw_count] in *; injection E as <- <-; unfold source; cbn [fst snd];
      rewrite ?len_cons; lia.
Qed.

Lemma drawn_app d a b : drawn d (a ++ b) = drawn d a + drawn d b.
Proof. unfold drawn. now rewrite filter_app, len_app. Qed.
Lemma drawn_bound d ds : 0 <= drawn d ds <= len ds.
Proof.
  unfold drawn. split; [apply len_nonneg|]. induction ds as [|x ds IH]; cbn [filter]; [lia|].
  rewrite len_cons. destruct (same_source d x); rewrite ?len_cons; lia.
Qed.
