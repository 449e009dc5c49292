From Verif Require Import GoBase SegModel IoiModel IoiSpec IoiProof SegSpec SegProof PathModel PathSpec.

Lemma strip_app a b : strip (a ++ b) = strip a ++ strip b.
Proof. unfold strip, strip_c. now rewrite !filter_app. Qed.

Lemma strip_keep c : addr_char c \/ c = 44 -> strip [c] = [c].
Proof.
  intro H. unfold strip, strip_c. cbn [filter].
  assert (N : c <> 32 /\ c <> 91 /\ c <> 93) by (unfold addr_char in H; lia).
  destruct N as (N1 & N2 & N3).
  destruct (Z.eqb_spec c 32); [congruence|]. cbn [negb filter].
  destruct (Z.eqb_spec c 91); [congruence|]. cbn [negb filter].
  destruct (Z.eqb_spec c 93); [congruence|]. reflexivity.
Qed.

Lemma strip_id s : Forall (fun c => addr_char c \/ c = 44) s -> strip s = s.
Proof.
  induction 1 as [|c s Hc H IH]; [reflexivity|].
  change (c :: s) with ([c] ++ s). rewrite strip_app, IH, strip_keep by exact Hc. reflexivity.
Qed.

Lemma strip_decorated s t : decorated s t -> strip s = strip t.
Proof.
  induction 1 as [|c s t H IH|c s t Hc H IH]; [reflexivity| |].
  - change (c :: s) with ([c] ++ s). change (c :: t) with ([c] ++ t). now rewrite !strip_app, IH.
  - change (c :: s) with ([c] ++ s). rewrite strip_app, IH.
    destruct Hc as [->|[->| ->]]; reflexivity.
Qed.

(** Every string is a decoration of its stripped form. *)
Lemma strip_is_decorated s : decorated s (strip s).
Proof.
  induction s as [|c s IH]; [constructor|].
  change (c :: s) with ([c] ++ s). rewrite strip_app. cbn [app].
  destruct (Z.eq_dec c 32) as [->|N1]; [now apply deco_ins; [lia|]|].
  destruct (Z.eq_dec c 91) as [->|N2]; [now apply deco_ins; [lia|]|].
  destruct (Z.eq_dec c 93) as [->|N3]; [now apply deco_ins; [lia|]|].
  destruct (Z.eq_dec c 44) as [->|N4].
  - rewrite strip_keep by now right. now apply deco_keep.
  - rewrite strip_keep by (left; repeat split; assumption). now apply deco_keep.
Qed.

Lemma addr_char_digit c : 48 <= c <= 57 -> addr_char c.
Proof. unfold addr_char. lia. Qed.

Lemma dec_addr z : 0 <= z -> Forall addr_char (dec z).
Proof. intro H. eapply Forall_impl; [|apply dec_digits, H]. apply addr_char_digit. Qed.

Definition texts (hs : list hop) : list bytes := concat (map hop_texts hs).

Lemma texts_chars hs : Forall valid_hop hs -> Forall (Forall addr_char) (texts hs).
Proof.
  induction 1 as [|h hs Hh H IH]; [constructor|]. unfold texts in *. cbn [map concat].
  apply Forall_app. split; [|exact IH]. destruct h as [n|p a]; cbn in *.
  - constructor; [apply dec_addr; lia|constructor].
  - destruct Hh as (Hp & _ & _ & Ha).
    constructor; [apply dec_addr; lia|]. constructor; [exact Ha|constructor].
Qed.

Lemma path_parts_app acc a b :
  path_parts acc (a ++ b) = let* acc' := path_parts acc a in path_parts acc' b.
Proof.
  revert acc; induction a as [|p a IH]; intro acc; [reflexivity|].
  cbn [app path_parts]. destruct (path_part acc p); cbn [bind]; auto.
Qed.

Lemma path_part_num acc n : 0 <= n <= 255 -> path_part acc (dec n) = Ok (acc ++ [n]).
Proof.
  intro H. unfold path_part.
  replace (contains 46 (dec n)) with false
    by (symmetry; apply contains_not_In, dec_not_in; lia).
  rewrite atoi_dec by (unfold int_max; lia). cbn [negb].
  destruct ((n <? 0) || (255 <? n)) eqn:E; [lia|reflexivity].
Qed.

Lemma path_parts_hop acc h : valid_hop h ->
  path_parts acc (hop_texts h) = Ok (acc ++ hop_bytes h).
Proof.
  destruct h as [n|p a]; cbn [hop_texts valid_hop path_parts].
  - intro H. rewrite path_part_num by exact H. reflexivity.
  - intros (Hp & Hdot & Hl & _). rewrite path_part_num by exact Hp. cbn [bind].
    unfold path_part. replace (contains 46 a) with true by (symmetry; now apply contains_In).
    unfold set_ext. rewrite rev_app_distr. cbn [rev app bind]. rewrite rev_involutive.
    pose proof (len_nonneg a). rewrite Z.mod_small by lia.
    cbn [hop_bytes]. rewrite <- !app_assoc. reflexivity.
Qed.

Lemma path_parts_route hs : Forall valid_hop hs -> forall acc,
  path_parts acc (texts hs) = Ok (acc ++ route_bytes hs).
Proof.
  induction 1 as [|h hs Hh H IH]; intro acc.
  - cbn. unfold route_bytes. cbn. now rewrite app_nil_r.
  - unfold texts, route_bytes in *. cbn [map concat]. rewrite path_parts_app, path_parts_hop by exact Hh.
    cbn [bind]. rewrite IH. now rewrite <- app_assoc.
Qed.

Lemma texts_nonempty h hs : texts (h :: hs) <> [].
Proof. unfold texts. cbn. destruct h; discriminate. Qed.

Lemma join_nonempty parts c : parts <> [] -> Forall (fun p => p <> []) parts -> join c parts <> [].
Proof.
  intros Hn H. destruct H as [|p parts Hp H]; [congruence|].
  destruct parts; cbn [join]; [exact Hp|]. destruct p; [congruence|discriminate].
Qed.

Lemma route_strip hs : Forall valid_hop hs -> strip (route_text hs) = route_text hs.
Proof.
  intro H. apply strip_id. unfold route_text. fold (texts hs).
  apply join_chars; [now right|]. eapply Forall_impl; [|exact (texts_chars _ H)].
  intros p Hp. eapply Forall_impl; [|exact Hp]. intros; now left.
Qed.

Lemma strip_nonempty s : strip s <> [] -> s <> [].
Proof. intros H ->. apply H. reflexivity. Qed.

Lemma parse_path_route hs s : hs <> [] -> Forall valid_hop hs -> decorated s (route_text hs) ->
  parse_path s = Ok (route_bytes hs).
Proof.
  intros Hne H D. pose proof (strip_decorated _ _ D) as E. rewrite route_strip in E by exact H.
  assert (Hs : s <> []).
  { apply strip_nonempty. rewrite E. unfold route_text. apply join_nonempty.
    - destruct hs; [congruence|apply texts_nonempty].
    - pose proof H as H'. clear -H'. induction H' as [|h hs Hh H IH]; [constructor|].
      cbn [map concat]. apply Forall_app. split; [|exact IH].
      destruct h as [n|p a]; cbn.
      + constructor; [apply dec_nonempty|constructor].
      + constructor; [apply dec_nonempty|]. constructor; [|constructor].
        destruct Hh as (_ & I & _). destruct a; [destruct I|discriminate]. }
  unfold parse_path. destruct s as [|c s]; [congruence|]. rewrite E.
  unfold route_text. fold (texts hs). rewrite split_join.
  - apply (path_parts_route hs H []).
  - destruct hs; [congruence|apply texts_nonempty].
  - eapply Forall_impl; [|exact (texts_chars _ H)]. intros p Hp I.
    rewrite Forall_forall in Hp. apply Hp in I. unfold addr_char in I. lia.
Qed.

(** ** Errors *)

Lemma horner_nonneg_acc d a : Forall (fun c => 48 <= c <= 57) d -> 0 <= a ->
  a <= fold_left (fun a c => 10 * a + (c - 48)) d a.
Proof.
  intro H. revert a. induction H as [|c d Hc H IH]; intros a Ha; cbn [fold_left]; [lia|].
  specialize (IH (10 * a + (c - 48)) ltac:(lia)). lia.
Qed.
Lemma horner_nonneg d : Forall (fun c => 48 <= c <= 57) d -> 0 <= horner d.
Proof. intro H. apply horner_nonneg_acc; [exact H|lia]. Qed.

Lemma forallb_is_digit d : forallb is_digit d = true -> Forall (fun c => 48 <= c <= 57) d.
Proof.
  intro H. apply Forall_forall. intros c I. rewrite forallb_forall in H. apply H in I.
  unfold is_digit in I. lia.
Qed.

Definition atoi_body (neg : bool) (d : bytes) : Z * bool :=
  match d with
  | [] => (0, false)
  | _ =>
      if forallb is_digit d then
        let v := if neg then - horner d else horner d in
        if v <? int_min then (int_min, false)
        else if int_max <? v then (int_max, false)
        else (v, true)
      else (if 2 ^ 64 <=? horner (leading_digits d) then if neg then int_min else int_max else 0, false)
  end.
Lemma atoi_eq s : atoi s =
  match s with 45 :: r => atoi_body true r | 43 :: r => atoi_body false r | _ => atoi_body false s end.
Proof.
  destruct s as [|c r]; [reflexivity|].
  destruct c as [|p|p]; try reflexivity. do 6 (destruct p as [p|p|]; try reflexivity).
Qed.
Lemma atoi_body_ok (neg : bool) d v : atoi_body neg d = (v, true) ->
  digits d /\ v = (if neg then - horner d else horner d) /\ int_min <= v <= int_max.
Proof.
  unfold atoi_body. destruct d as [|c d]; [discriminate|].
  destruct (forallb is_digit (c :: d)) eqn:F; [|discriminate].
  set (w := if neg then - horner (c :: d) else horner (c :: d)).
  destruct (Z.ltb_spec w int_min); [discriminate|].
  destruct (Z.ltb_spec int_max w); [discriminate|]. intro E; injection E as <-.
  split; [split; [discriminate|now apply forallb_is_digit]|]. split; [reflexivity|lia].
Qed.
Lemma atoi_body_complete (neg : bool) d : digits d ->
  int_min <= (if neg then - horner d else horner d) <= int_max ->
  atoi_body neg d = ((if neg then - horner d else horner d), true).
Proof.
  intros [Hn Hd] R. unfold atoi_body. destruct d as [|c d]; [congruence|].
  rewrite forallb_digits by exact Hd.
  destruct (Z.ltb_spec (if neg then - horner (c :: d) else horner (c :: d)) int_min); [lia|].
  destruct (Z.ltb_spec int_max (if neg then - horner (c :: d) else horner (c :: d))); [lia|]. reflexivity.
Qed.

Lemma digits_first c d : digits (c :: d) -> c <> 45 /\ c <> 43.
Proof. intros [_ H]. inversion H; subst. lia. Qed.

Lemma atoi_numeral s v : atoi s = (v, true) <-> numeral s v /\ int_min <= v <= int_max.
Proof.
  rewrite atoi_eq. split.
  - assert (P : forall s', atoi_body false s' = (v, true) -> numeral s' v /\ int_min <= v <= int_max).
    { intros s' H. apply atoi_body_ok in H as (D & -> & R). split; [now constructor|exact R]. }
    destruct s as [|c r]; [now intro|].
    destruct (Z.eq_dec c 45) as [->|N1].
    { intro H. apply atoi_body_ok in H as (D & -> & R). split; [now apply num_neg|exact R]. }
    destruct (Z.eq_dec c 43) as [->|N2].
    { intro H. apply atoi_body_ok in H as (D & -> & R). split; [now apply num_pos|exact R]. }
    intro H. apply P.
    destruct c as [|p|p]; try exact H. do 6 (destruct p as [p|p|]; try congruence; try exact H).
  - intros [N R]. destruct N as [d D|d D|d D].
    + pose proof (atoi_body_complete false d D R) as E.
      destruct d as [|c r]; [exact E|]. destruct (digits_first _ _ D) as [N1 N2].
      destruct c as [|p|p]; try exact E. do 6 (destruct p as [p|p|]; try congruence; try exact E).
    + exact (atoi_body_complete false d D R).
    + exact (atoi_body_complete true d D R).
Qed.

(** A part without dots that is not a numeral of a byte value is an error. *)
Lemma path_part_bad acc p : ~ In 46 p -> (~ exists n, numeral p n /\ 0 <= n <= 255) ->
  path_part acc p = Err EMsg.
Proof.
  intros Hd Hn. unfold path_part. replace (contains 46 p) with false by (symmetry; now apply contains_not_In).
  destruct (atoi p) as [v ok] eqn:A. destruct ok; [|reflexivity]. cbn [negb].
  apply atoi_numeral in A as [N R].
  destruct ((v <? 0) || (255 <? v)) eqn:E; [reflexivity|]. exfalso. apply Hn. exists v. split; [exact N|lia].
Qed.

Lemma path_part_good acc p n : ~ In 46 p -> numeral p n -> 0 <= n <= 255 ->
  path_part acc p = Ok (acc ++ [n]).
Proof.
  intros Hd N R. unfold path_part. replace (contains 46 p) with false by (symmetry; now apply contains_not_In).
  replace (atoi p) with (n, true).
  - cbn [negb]. destruct ((n <? 0) || (255 <? n)) eqn:E; [lia|reflexivity].
  - symmetry. apply atoi_numeral. split; [exact N|unfold int_min, int_max; lia].
Qed.

Lemma path_parts_nodots parts : Forall (fun p => ~ In 46 p) parts -> forall acc,
  (exists ns, Forall2 (fun p n => numeral p n /\ 0 <= n <= 255) parts ns /\
              path_parts acc parts = Ok (acc ++ ns)) \/
  ((~ exists ns, Forall2 (fun p n => numeral p n /\ 0 <= n <= 255) parts ns) /\
   path_parts acc parts = Err EMsg).
Proof.
  induction 1 as [|p parts Hp H IH]; intro acc.
  - left. exists []. split; [constructor|]. cbn. now rewrite app_nil_r.
  - cbn [path_parts].
    assert (D : (exists n, numeral p n /\ 0 <= n <= 255) \/ ~ (exists n, numeral p n /\ 0 <= n <= 255)).
    { destruct (atoi p) as [v ok] eqn:A. destruct ok.
      - destruct (Z_le_dec 0 v), (Z_le_dec v 255).
        + left. exists v. apply atoi_numeral in A as [N _]. split; [exact N|lia].
        + right. intros (n' & N & R). assert (A' : atoi p = (n', true))
            by (apply atoi_numeral; split; [exact N|unfold int_min, int_max; lia]). assert (n' = v) by congruence. lia.
        + right. intros (n' & N & R). assert (A' : atoi p = (n', true))
            by (apply atoi_numeral; split; [exact N|unfold int_min, int_max; lia]). assert (n' = v) by congruence. lia.
        + right. intros (n' & N & R). assert (A' : atoi p = (n', true))
            by (apply atoi_numeral; split; [exact N|unfold int_min, int_max; lia]). assert (n' = v) by congruence. lia.
      - right. intros (n & N & R). assert (A' : atoi p = (n, true))
          by (apply atoi_numeral; split; [exact N|unfold int_min, int_max; lia]). congruence. }
    destruct D as [(n & N & R)|D].
    + rewrite (path_part_good acc p n) by assumption. cbn [bind].
      destruct (IH (acc ++ [n])) as [(ns & F & E)|(F & E)]; rewrite E.
      * left. exists (n :: ns). split; [constructor; [now split|exact F]|]. now rewrite <- app_assoc.
      * right. split; [|reflexivity]. intros (ns & F'). inversion F'; subst. apply F. eauto.
    + rewrite path_part_bad by assumption. right. split; [|reflexivity].
      intros (ns & F'). inversion F'; subst. apply D. eauto.
Qed.

Lemma In_strip c s : In c (strip s) -> In c s.
Proof. unfold strip, strip_c. rewrite !filter_In. tauto. Qed.

Lemma split_In c s p x : In p (split c s) -> In x p -> In x s.
Proof.
  revert p. induction s as [|y s IH]; intros p Hp Hx.
  - cbn in Hp. destruct Hp as [<-|[]]. destruct Hx.
  - cbn in Hp. destruct (y =? c).
    + destruct Hp as [<-|Hp]; [destruct Hx|]. right. eauto.
    + destruct (split c s) as [|h r].
      * destruct Hp as [<-|[]]. destruct Hx as [<-|[]]. now left.
      * destruct Hp as [<-|Hp].
        -- destruct Hx as [<-|Hx]; [now left|]. right. apply (IH h); [now left|exact Hx].
        -- right. apply (IH p); [now right|exact Hx].
Qed.

(** A string without dots: either every comma separated part (blanks and
    brackets removed) is a numeral of a byte and those bytes are returned, or an
    error is. *)
Lemma parse_path_nodots s : s <> [] -> ~ In 46 s ->
  (exists ns, Forall2 (fun p n => numeral p n /\ 0 <= n <= 255) (split 44 (strip s)) ns /\
              parse_path s = Ok ns) \/
  ((~ exists ns, Forall2 (fun p n => numeral p n /\ 0 <= n <= 255) (split 44 (strip s)) ns) /\
   parse_path s = Err EMsg).
Proof.
  intros Hs Hd. unfold parse_path. destruct s as [|c s]; [congruence|].
  apply (path_parts_nodots (split 44 (strip (c :: s)))).
  apply Forall_forall. intros p Hp I. apply Hd. apply In_strip. eapply split_In; eauto.
Qed.

Lemma plain_parts_split s parts : plain_parts s parts -> split 44 (strip s) = parts.
Proof.
  intros (Hn & D & F). rewrite (strip_decorated _ _ D), strip_id.
  - apply split_join; [exact Hn|]. eapply Forall_impl; [|exact F]. intros p [_ Hp] I.
    rewrite Forall_forall in Hp. apply Hp in I. unfold addr_char in I. lia.
  - apply join_chars; [now right|]. eapply Forall_impl; [|exact F]. intros p [_ Hp].
    eapply Forall_impl; [|exact Hp]. intros; now left.
Qed.
Lemma plain_parts_nodot s parts : plain_parts s parts -> ~ In 46 s.
Proof.
  intros (Hn & D & F) I.
  assert (J : forall s t, decorated s t -> In 46 s -> In 46 t).
  { clear. induction 1 as [|c s t H IH|c s t Hc H IH]; intro I; [exact I| |].
    - destruct I as [I|I]; [now left|right; auto].
    - destruct I as [I|I]; [lia|auto]. }
  apply (J _ _ D) in I.
  assert (K : Forall (fun c => c <> 46) (join 44 parts)).
  { apply join_chars; [lia|]. eapply Forall_impl; [|exact F]. intros p [Hp _].
    apply Forall_forall. intros c Hc ->. tauto. }
  rewrite Forall_forall in K. apply K in I. congruence.
Qed.
Lemma parse_path_plain s parts : s <> [] -> plain_parts s parts ->
  (exists ns, Forall2 (fun p n => numeral p n /\ 0 <= n <= 255) parts ns /\ parse_path s = Ok ns) \/
  ((~ exists ns, Forall2 (fun p n => numeral p n /\ 0 <= n <= 255) parts ns) /\ parse_path s = Err EMsg).
Proof.
  intros Hs P. rewrite <- (plain_parts_split s parts P).
  apply parse_path_nodots; [exact Hs|]. eapply plain_parts_nodot; eauto.
Qed.

(** ParsePath panics exactly when the first part is a dotted address. *)
Lemma path_part_nonempty acc p acc' : path_part acc p = Ok acc' -> acc' <> [].
Proof.
  unfold path_part. destruct (contains 46 p).
  - destruct (set_ext acc); cbn [bind]; try discriminate. intro E; injection E as <-.
    destruct a; discriminate.
  - destruct (atoi p) as [v ok]. destruct (negb ok); [discriminate|].
    destruct (_ || _); [discriminate|]. intro E; injection E as <-. destruct acc; discriminate.
Qed.
Lemma path_part_no_panic acc p : acc <> [] -> path_part acc p <> Panic.
Proof.
  intro H. unfold path_part. destruct (contains 46 p).
  - unfold set_ext. destruct (rev acc) eqn:E; [|discriminate].
    apply (f_equal (@rev Z)) in E. rewrite rev_involutive in E. cbn in E. congruence.
  - destruct (atoi p) as [v ok]. destruct (negb ok); [discriminate|]. destruct (_ || _); discriminate.
Qed.
Lemma path_parts_no_panic parts : forall acc, acc <> [] -> path_parts acc parts <> Panic.
Proof.
  induction parts as [|p parts IH]; intros acc H; [discriminate|]. cbn [path_parts].
  destruct (path_part acc p) eqn:E; cbn [bind]; try discriminate.
  - apply IH. eapply path_part_nonempty; eauto.
  - now apply path_part_no_panic in E.
Qed.
Lemma parse_path_panic_iff s :
  parse_path s = Panic <-> s <> [] /\ In 46 (hd [] (split 44 (strip s))).
Proof.
  unfold parse_path. destruct s as [|c s]; [split; [discriminate|intros [? _]; congruence]|].
  pose proof (split_nonempty 44 (strip (c :: s))) as N.
  destruct (split 44 (strip (c :: s))) as [|p parts]; [congruence|]. cbn [hd path_parts].
  destruct (contains 46 p) eqn:C.
  - assert (E : path_part [] p = Panic) by (unfold path_part; rewrite C; reflexivity).
    rewrite E. cbn [bind]. apply contains_In in C. split; [split; [discriminate|exact C]|reflexivity].
  - split.
    + intro E. exfalso. destruct (path_part [] p) eqn:P; cbn [bind] in E; try discriminate.
      * revert E. apply path_parts_no_panic. eapply path_part_nonempty; eauto.
      * unfold path_part in P. rewrite C in P. destruct (atoi p) as [v ok].
        destruct (negb ok); [discriminate|]. destruct (_ || _); discriminate.
    + intros [_ I]. apply contains_In in I. congruence.
Qed.

(** ** Builder *)

Lemma pb_step_denotes b c d : denotes c d -> pb_err b = false -> pb_step b c = Ok (pb_write b d).
Proof.
  intros H E. unfold pb_step. rewrite E. destruct H.
  - reflexivity.
  - now rewrite class_bytes_spec.
  - now rewrite instance_bytes_spec.
  - now rewrite attribute_bytes_spec.
  - now rewrite marshal_valid.
  - now rewrite element_bytes_spec.
  - reflexivity.
  - reflexivity.
  - reflexivity.
  - erewrite parse_path_route by eassumption. reflexivity.
  - reflexivity.
Qed.

Lemma arr_match_sub n t : ~ In 91 t -> forallb idx_char t = true ->
  arr_match (n ++ [91] ++ t ++ [93]) = Some t.
Proof.
  intros H F. unfold arr_match.
  replace (n ++ [91] ++ t ++ [93]) with ((n ++ [91] ++ t) ++ [93]) by (now rewrite <- !app_assoc).
  unfold c_rb. rewrite ends_with_app. rewrite <- !app_assoc. unfold c_lb.
  change ([91] ++ t ++ [93]) with (91 :: t ++ [93]).
  rewrite last_index_of_app by (rewrite in_app_iff; cbn; intros [?|[?|[]]]; [tauto|lia]).
  replace (S (length n)) with (length (n ++ [91])) by (rewrite app_length; cbn; lia).
  replace (n ++ 91 :: t ++ [93]) with ((n ++ [91]) ++ t ++ [93]) by (now rewrite <- app_assoc).
  rewrite skipn_length_app, removelast_snoc, F. reflexivity.
Qed.

Lemma marshal_bad_sub n t : ~ In 46 n -> ~ In 46 t -> ~ In 91 t -> forallb idx_char t = true ->
  contains 44 t = false -> snd (atoi t) = false ->
  marshal_part (n ++ [91] ++ t ++ [93]) = Err EMsg.
Proof.
  intros H1 H2 H3 F C A. unfold marshal_part, parse_part.
  rewrite bit_match_nodot.
  2:{ unfold c_dot. rewrite !in_app_iff. cbn. intuition lia. }
  rewrite arr_match_sub by assumption. unfold c_comma. rewrite C.
  destruct (atoi t) as [v ok]. cbn in A. subst ok. reflexivity.
Qed.

Lemma forallb_idx_digits a : Forall (fun c => 48 <= c <= 57) a -> forallb idx_char a = true.
Proof.
  intro H. apply forallb_forall. intros c I. rewrite Forall_forall in H. apply H in I.
  unfold idx_char, is_digit. lia.
Qed.

Lemma atoi_blank a b : Forall (fun c => 48 <= c <= 57) a -> snd (atoi (a ++ [32] ++ b)) = false.
Proof.
  intro H. destruct (atoi (a ++ [32] ++ b)) as [v ok] eqn:E. destruct ok; [|reflexivity].
  exfalso. apply atoi_numeral in E as [N _].
  assert (In 32 (a ++ [32] ++ b)) as I by (apply in_or_app; right; now left).
  assert (Hd : forall s v, numeral s v -> In 32 s -> False).
  { clear. intros s v N I. destruct N as [d D|d D|d D]; destruct D as [_ D]; rewrite Forall_forall in D.
    - apply D in I. lia.
    - destruct I as [I|I]; [lia|]. apply D in I. lia.
    - destruct I as [I|I]; [lia|]. apply D in I. lia. }
  eapply Hd; eauto.
Qed.

Lemma pb_step_invalid b c : invalid c -> pb_err b = false -> pb_step b c = Ok (pb_fail b).
Proof.
  intros H E. unfold pb_step. rewrite E. destruct H as [s parts Hs Hd Hn|n V|n a d V Ha Hb].
  - destruct (parse_path_plain s parts Hs Hd) as [(ns & F & _)|(_ & P)]; [exfalso; apply Hn; eauto|].
    now rewrite P.
  - change (n ++ [91; 93]) with (n ++ [91] ++ [] ++ [93]).
    rewrite marshal_bad_sub; [reflexivity|..]; try (intros []); try reflexivity.
    apply (valid_name_not_in _ _ V). unfold name_char; lia.
  - replace (n ++ [91] ++ a ++ [32] ++ d ++ [93]) with (n ++ [91] ++ (a ++ [32] ++ d) ++ [93])
      by (now rewrite <- !app_assoc).
    assert (X : forall c, In c (a ++ [32] ++ d) -> 48 <= c <= 57 \/ c = 32).
    { intros c. rewrite !in_app_iff. rewrite Forall_forall in Ha, Hb.
      intros [I|[I|I]]; [left; auto| right; cbn in I; lia | left; auto]. }
    rewrite marshal_bad_sub; [reflexivity|..].
    + apply (valid_name_not_in _ _ V). unfold name_char; lia.
    + intro I. apply X in I. lia.
    + intro I. apply X in I. lia.
    + rewrite !forallb_app, (forallb_idx_digits a Ha), (forallb_idx_digits d Hb). reflexivity.
    + apply contains_not_In. intro I. apply X in I. lia.
    + now apply atoi_blank.
Qed.

Lemma pb_run_err b cs : pb_err b = true -> pb_run b cs = Ok b.
Proof.
  intro E. induction cs as [|c cs IH]; [reflexivity|]. cbn [pb_run]. unfold pb_step. rewrite E. exact IH.
Qed.

Lemma pb_run_valid cs ds : Forall2 denotes cs ds -> forall b, pb_err b = false ->
  pb_run b cs = Ok {| pb_buf := pb_buf b ++ concat ds; pb_err := false |}.
Proof.
  induction 1 as [|c d cs ds H F IH]; intros b E.
  - cbn. rewrite app_nil_r. destruct b; cbn in *. now subst.
  - cbn [pb_run]. rewrite (pb_step_denotes b c d H E). cbn [bind]. rewrite IH by exact E.
    cbn [pb_write pb_buf concat]. now rewrite <- app_assoc.
Qed.

Lemma pb_run_invalid before bad after ds : Forall2 denotes before ds -> invalid bad ->
  forall b, pb_err b = false ->
  pb_run b (before ++ bad :: after) = Ok {| pb_buf := pb_buf b ++ concat ds; pb_err := true |}.
Proof.
  intros F I. induction F as [|c d cs ds H F IH]; intros b E.
  - cbn [app pb_run]. rewrite pb_step_invalid by assumption. cbn [bind].
    rewrite pb_run_err by reflexivity. cbn. unfold pb_fail. now rewrite app_nil_r.
  - cbn [app pb_run]. rewrite (pb_step_denotes b c d H E). cbn [bind]. rewrite IH by exact E.
    cbn [pb_write pb_buf concat]. now rewrite <- app_assoc.
Qed.
