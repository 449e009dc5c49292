(** * Lengths of replies, and what countIOIsThatFit counts *)
From Verif Require Import GoBase IoiModel IoiSpec IoiProof ItemsModel ItemsSpec TypesModel
  ReadModel ReadSpec ReadProof BatchModel BatchSpec BatchProof FitSpec.

Lemma encodes_len t v d : encodes t v d -> width t = Some (len d).
Proof.
  intro E. inversion E; subst; unfold width.
  - reflexivity.
  - rewrite H. unfold len. now rewrite le_length.
  - reflexivity.
  - reflexivity.
Qed.
Lemma encodes_all_len t k vs d : width t = Some k -> encodes_all t vs d -> len d = k * len vs.
Proof.
  intros W E. induction E as [|v d vs ds E _ IH]; [unfold len; cbn [length]; lia|].
  rewrite len_app, len_cons, IH. apply encodes_len in E. rewrite W in E. injection E as ->. lia.
Qed.
Lemma width_size t k : width t = Some k -> type_size t = k.
Proof.
  unfold width. destruct (int_type t) as [[sg w]|] eqn:I.
  - intro E. injection E as <-. unfold int_type in I.
    repeat match type of I with match ?x with _ => _ end = _ => destruct x; try discriminate end;
    injection I as <- <-; reflexivity.
  - repeat match goal with |- match ?x with _ => _ end = _ -> _ => destruct x; try discriminate end;
    intro E; injection E as <-; reflexivity.
Qed.

Lemma multi_reply_len q l : len (multi_reply q l) = 8 + 2 * len l + len (concat l).
Proof.
  unfold multi_reply. rewrite !len_app, !le_len, concat_le_len.
  replace (len (offsets (2 + 2 * len l) l)) with (len l) by (unfold len; now rewrite offsets_length).
  rewrite !len_cons, len_nil. lia.
Qed.

(** The length of one answer. *)
Lemma answer_len w k b : width (w_type w) = Some k -> answer_to w b -> len b = 6 + k * w_elems w.
Proof.
  intros W A. inversion A; subst.
  - rewrite !len_app, (encodes_all_len _ _ _ _ W H0), !len_cons, len_nil. lia.
  - rewrite H in W. discriminate.
  - rewrite H in W. discriminate.
Qed.

Lemma answers_values l answers : Forall2 answer_to l answers -> Forall (fun w => width (w_type w) <> None) l ->
  len (concat answers) = 6 * len l + values_size l.
Proof.
  induction 1 as [|w b l bs A _ IH]; intro F; [reflexivity|]. inversion F; subst. cbn [concat values_size fold_right].
  fold (values_size l). rewrite len_app, IH by assumption. destruct (width (w_type w)) as [k|] eqn:W; [|congruence].
  rewrite (answer_len w k b W A), len_cons. lia.
Qed.

(** Answers no longer than their questions. *)
Lemma answers_short l answers : Forall2 answer_to l answers ->
  Forall (fun w => forall b, answer_to w b -> len b <= len (read_service w)) l ->
  len (concat answers) <= subs_size l.
Proof.
  induction 1 as [|w b l bs A _ IH]; intro F; [cbn; lia|]. inversion F; subst. cbn [concat subs_size].
  rewrite len_app. specialize (IH H2). specialize (H1 b A). rewrite read_service_len in H1. lia.
Qed.

Section ops.
Variable ops : list cl_op.
Variable ex : wish -> example.
Let ok (w : wish) : Prop := named ops (w_tag w).

Definition counted (l : list wish) : Z := fold_right (fun w n => type_size (w_type w) * w_elems w + n) 0 l.

Lemma count_fit_loop_data cs ws : Forall ok ws -> forall i n b rs m,
  count_fit_loop (cl_run ops) cs (map (desc ex) ws) i n b rs = Ok m ->
  m = n \/ ((i < m)%nat /\ rs + counted (firstn (m - i) ws) < cs).
Proof.
  induction 1 as [|w ws Hw F IH]; intros i n b rs m; cbn [map count_fit_loop].
  - intro E. injection E as <-. now left.
  - rewrite new_ioi_wish by exact Hw. cbn [bind]. cbv zeta. cbn [wioi ioi_buf].
    match goal with |- context [if ?c then _ else _] => destruct c eqn:C end; intro E.
    + injection E as <-. now left.
    + apply orb_false_iff in C as [_ C2]. apply Z.leb_gt in C2. cbn [desc td_type td_elems] in *.
      right. destruct (IH _ _ _ _ _ E) as [-> | (R & B)].
      * split; [lia|]. replace (S i - i)%nat with 1%nat by lia. cbn [firstn counted fold_right]. lia.
      * split; [lia|]. replace (m - i)%nat with (S (m - S i)) by lia. cbn [firstn counted fold_right].
        fold (counted (firstn (m - S i) ws)). lia.
Qed.
Lemma count_fit_data cs ws m : Forall ok ws ->
  count_fit (cl_run ops) cs (map (desc ex) ws) = Ok m -> m = 1%nat \/ counted (firstn m ws) < cs.
Proof.
  intros F E. destruct (count_fit_loop_data _ _ F _ _ _ _ _ E) as [->|[_ B]]; [now left|right].
  rewrite Nat.sub_0_r in B. lia.
Qed.
Lemma batches_data_log {St} (ctl : controller St) otid cs : cs < 65535 -> forall fuel ws,
  Forall ok ws -> Forall (fun w => 16 + len (encode (w_tag w)) <= cs) ws ->
  forall s log q r s' log' q',
  read_batches fuel (asked ctl) (cl_run ops) (s, log) otid q cs (map (desc ex) ws) = (r, (s', log'), q') ->
  exists new, log' = log ++ new /\
    sent_ok ops (fun l => l <> [] /\ (exists a b, ws = a ++ l ++ b) /\ (request_size l <= cs \/ request_size l - 2 < cs) /\ (length l = 1%nat \/ counted l < cs)) otid new.
Proof.
  intros Hcs fuel. induction fuel as [|fuel IH]; intros ws F Fit s log q r s' log' q' E.
  - exists []. split; [|constructor]. rewrite app_nil_r. destruct ws; now injection E.
  - destruct ws as [|w0 ws0]; [exists []; split; [rewrite app_nil_r; now injection E|constructor]|].
    set (ws := w0 :: ws0) in *.
    destruct (count_fit_spec ops ex cs ws F) as (m & Ec & Rm & Sz); [discriminate|].
    pose proof (count_fit_data cs ws m F Ec) as Dt.
    unfold ws in E. cbn [map read_batches] in E. change (desc ex w0 :: map (desc ex) ws0) with (map (desc ex) ws) in E.
    rewrite Ec in E. rewrite firstn_map, skipn_map in E.
    assert (Elr : ws = firstn m ws ++ skipn m ws) by (symmetry; apply firstn_skipn).
    assert (Hl : length (firstn m ws) = m) by (rewrite firstn_length; lia).
    set (l := firstn m ws) in *. set (rr := skipn m ws) in *.
    assert (Rq : request_size l <= cs \/ request_size l - 2 < cs).
    { destruct Sz as [X|X]; [left|now right]. destruct l as [|w [|? ?]]; cbn [length] in Hl; try lia.
      rewrite Elr in Fit. cbn [app] in Fit. inversion Fit; subst. rewrite request_size_eq. cbn [subs_size].
      change (len [w]) with 1. lia. }
    assert (Sl : subs_size l + 6 <= cs).
    { rewrite request_size_eq in Rq. pose proof (len_nonneg l). lia. }
    destruct (read_list fuel (asked ctl) (cl_run ops) (s, log) otid (q + 1) cs (map (desc ex) l)) as [[r0 [s1 log1]] q1] eqn:E0.
    assert (Fl : Forall ok l) by (now apply Forall_firstn').
    apply (read_list_log_one _ _ _ _ _ _ _ _ _ _ _ _ _ _ Fl) in E0; [|exact Sl|lia].
    set (P := fun l => l <> [] /\ (exists a b, ws = a ++ l ++ b) /\ (request_size l <= cs \/ request_size l - 2 < cs) /\ (length l = 1%nat \/ counted l < cs)).
    assert (exists n0, log1 = log ++ n0 /\ sent_ok ops P otid n0) as (n0 & -> & S0).
    { destruct E0 as [-> | ->]; [exists []; split; [now rewrite app_nil_r|constructor]|].
      eexists. split; [reflexivity|]. constructor; [|constructor]. exists (q + 1), l.
      split; [now apply Forall_firstn'|]. split; [|reflexivity]. split; [intro X; rewrite X in Hl; cbn in Hl; lia|].
      split; [exists [], rr; exact Elr|]. split; [exact Rq|].
      destruct Dt as [->|Dt]; [now left|now right]. }
    destruct r0 as [r0|e| |]; try (injection E as <- <- <- <-; now exists n0).
    destruct (read_batches fuel (asked ctl) (cl_run ops) (s1, log ++ n0) otid q1 cs (map (desc ex) rr)) as [[r1 [s2 log2]] q2] eqn:E1.
    destruct (IH rr (Forall_skipn' _ m ws F) (Forall_skipn' _ m ws Fit) _ _ _ _ _ _ _ E1) as (n1 & -> & S1).
    assert (log' = (log ++ n0) ++ n1) as -> by (destruct r1; now injection E).
    exists (n0 ++ n1). split; [now rewrite app_assoc|]. apply Forall_app. split; [exact S0|].
    eapply Forall_impl; [|exact S1]. intros req (q0 & l0 & Fo & (N & (a & b & Eab) & Rz) & ->).
    exists q0, l0. split; [exact Fo|]. split; [|reflexivity]. split; [exact N|]. split; [|exact Rz].
    exists (l ++ a), b. rewrite Elr. fold rr. rewrite Eab, app_assoc. reflexivity.
Qed.

End ops.
