(** * C54: combined errors *)
From Verif Require Import GoBase ErrModel ErrSpec.

Fixpoint weight (e : error) : nat :=
  match e with
  | EPlain _ => 1
  | EWraps _ e => 1 + weight e
  | EMulti m => 1 + fold_right (fun o n => match o with Some e => weight e | None => 0 end + 1 + n) 0 m
  end%nat.
Definition oweight (o : option error) : nat := match o with Some e => weight e | None => 0%nat end.
Definition lweight (m : list (option error)) : nat := fold_right (fun o n => oweight o + 1 + n)%nat 0%nat m.
Lemma weight_multi m : weight (EMulti m) = (1 + lweight m)%nat.
Proof. reflexivity. Qed.
Definition oinhabited (o : option error) : Prop := match o with Some e => inhabited e | None => True end.
Definition opart (t : Z) (o : option error) : Prop := match o with Some e => part t e | None => False end.

Lemma unwrap_weight h m : (oweight (multi_unwrap (h :: m)) <= oweight h + 1 + lweight m)%nat.
Proof. destruct m as [|b [|c r]]; cbn [multi_unwrap oweight]; [lia|cbn [lweight fold_right]; lia|]. rewrite weight_multi. cbn [lweight fold_right]. lia. Qed.
Lemma lweight_cons h m : lweight (h :: m) = (oweight h + 1 + lweight m)%nat.
Proof. reflexivity. Qed.
Lemma unwrap_inhabited h m : (forall e, In (Some e) (h :: m) -> inhabited e) -> oinhabited (multi_unwrap (h :: m)).
Proof.
  intros H. destruct m as [|b [|c r]]; cbn [multi_unwrap].
  - destruct h; cbn [oinhabited]; [apply H; now left|exact I].
  - destruct b; cbn [oinhabited]; [apply H; right; now left|exact I].
  - cbn [oinhabited]. constructor; [discriminate|]. intros e Hi. apply H. now right.
Qed.
Lemma unwrap_part t h m : opart t (multi_unwrap (h :: m)) \/ opart t h <-> exists e, In (Some e) (h :: m) /\ part t e.
Proof.
  destruct m as [|b [|c r]]; cbn [multi_unwrap].
  - split.
    + intros [H|H]; (destruct h as [e|]; [|contradiction]); exists e; split; [now left|exact H|now left|exact H].
    + intros (e & [->|[]] & P). now left.
  - split.
    + intros [H|H]; [destruct b as [e|]; [|contradiction]|destruct h as [e|]; [|contradiction]]; exists e; (split; [|exact H]); [right|]; now left.
    + intros (e & [->|[->|[]]] & P); [right|left]; exact P.
  - split.
    + intros [H|H].
      * cbn [opart] in H. inversion H; subst. eexists. split; [right; eassumption|assumption].
      * destruct h as [e|]; [|contradiction]. exists e. split; [now left|exact H].
    + intros (e & [->|I] & P); [right; exact P|]. left. cbn [opart]. econstructor; eassumption.
Qed.

Lemma errors_is_part fuel : forall o t, (oweight o < fuel)%nat -> oinhabited o ->
  exists b, errors_is fuel o t = Ok b /\ (b = true <-> opart t o).
Proof.
  induction fuel as [|k IH]; intros o t W I; [lia|].
  destruct o as [[id|id e|m]|]; cbn [errors_is].
  - exists (id =? t). split; [reflexivity|]. cbn [opart]. split.
    + intros H. assert (id = t) by lia. subst. constructor.
    + intros H. inversion H; subst. lia.
  - cbn [oweight weight] in W. cbn [oinhabited] in I. inversion I; subst.
    destruct (id =? t) eqn:E.
    + exists true. split; [reflexivity|]. split; [|reflexivity]. intros _. cbn [opart]. assert (id = t) by lia. subst. constructor.
    + destruct (IH (Some e) t) as (b & Eb & Hb); [cbn [oweight]; lia|assumption|]. exists b. split; [exact Eb|]. rewrite Hb. cbn [opart].
      split; [now constructor|]. intros P. inversion P; subst; [lia|assumption].
  - cbn [oinhabited] in I. inversion I as [| |m' Ne Hi]; subst. destruct m as [|h m]; [congruence|].
    cbn [oweight] in W. rewrite weight_multi, lweight_cons in W.
    destruct (IH h t) as (b & Eb & Hb); [lia| |].
    { destruct h; cbn [oinhabited]; [apply Hi; now left|exact Logic.I]. }
    rewrite Eb. cbn [bind].
    assert (P : opart t (Some (EMulti (h :: m))) <-> opart t (multi_unwrap (h :: m)) \/ opart t h).
    { rewrite unwrap_part. cbn [opart]. split; [intros X; inversion X; subst; eauto|intros (e & A & B); econstructor; eauto]. }
    destruct b.
    + exists true. split; [reflexivity|]. split; [|reflexivity]. intros _. rewrite P. right. now apply Hb.
    + destruct (IH (multi_unwrap (h :: m)) t) as (b & Eb' & Hb'); [pose proof (unwrap_weight h m); lia|now apply unwrap_inhabited|].
      exists b. split; [exact Eb'|]. rewrite Hb', P. split; [now left|]. intros [X|X]; [exact X|]. apply Hb in X. discriminate.
  - exists false. split; [reflexivity|]. split; [discriminate|contradiction].
Qed.

(** C54: for every error without an empty combined error in it, testing ends and
    finds exactly the parts. *)
Theorem C54_membership_partial : forall e, inhabited e -> exists fuel, forall t,
  (errors_is fuel (Some e) t = Ok true <-> part t e) /\
  (errors_is fuel (Some e) t = Ok false <-> ~ part t e).
Proof.
  intros e I. exists (S (weight e)). intros t.
  destruct (errors_is_part (S (weight e)) (Some e) t) as (b & E & H); [cbn [oweight]; lia|exact I|]. rewrite E. cbn [opart] in H.
  destruct b; split; split; intros X; try reflexivity; try discriminate; try (apply H; reflexivity).
  - contradiction X. now apply H.
  - apply H in X. discriminate.
  - intros P. apply H in P. discriminate.
Qed.
Print Assumptions C54_membership_partial.
(** More fuel changes nothing. *)
Lemma errors_is_fuel k : forall k' o t b, errors_is k o t = Ok b -> (k <= k')%nat -> errors_is k' o t = Ok b.
Proof.
  induction k as [|k IH]; intros k' o t b E L; [discriminate|]. destruct k' as [|k']; [lia|].
  destruct o as [[id|id e|m]|]; cbn [errors_is] in *; auto.
  - destruct (id =? t); [exact E|]. apply IH; [exact E|lia].
  - destruct m as [|h m]; [discriminate|]. destruct (errors_is k h t) as [b'| | |] eqn:Eh; cbn [bind] in E; try discriminate.
    rewrite (IH k' h t b' Eh) by lia. cbn [bind]. destruct b'; [exact E|]. apply IH; [exact E|lia].
Qed.
Theorem C54_added_found : forall fuel m e t, errors_is fuel (Some (EMulti (multi_add m (Some e)))) t = Ok false ->
  (forall x, In (Some x) m -> inhabited x) -> inhabited e -> ~ part t e.
Proof.
  intros fuel m e t E Hm He P.
  assert (I : inhabited (EMulti (multi_add m (Some e)))).
  { constructor; [unfold multi_add; destruct m; discriminate|]. intros x Hx. unfold multi_add in Hx.
    apply in_app_or in Hx. destruct Hx as [Hx|[Hx|[]]]; [now apply Hm|]. injection Hx as <-. exact He. }
  destruct (C54_membership_partial _ I) as (f & Hf). destruct (Hf t) as [[_ H] _].
  assert (T := H ltac:(econstructor; [unfold multi_add; apply in_or_app; right; now left|exact P])).
  destruct (Nat.le_ge_cases fuel f) as [L|L].
  - rewrite (errors_is_fuel _ _ _ _ _ E L) in T. discriminate.
  - rewrite (errors_is_fuel _ _ _ _ _ T L) in E. discriminate.
Qed.
Print Assumptions C54_added_found.
Definition ex_err : error := EMulti [Some (EPlain 1); None; Some (EWraps 2 (EPlain 3)); Some (EMulti [Some (EPlain 4)])].
Example C54_example : inhabited ex_err /\ part 3 ex_err /\ part 4 ex_err /\ ~ part 9 ex_err /\
  errors_is 20 (Some ex_err) 3 = Ok true /\ errors_is 20 (Some ex_err) 9 = Ok false.
Proof.
  assert (I : inhabited ex_err).
  { constructor; [discriminate|]. intros e H. cbn [In] in H. decompose [or] H; try discriminate; try contradiction;
      match goal with X : Some _ = Some _ |- _ => injection X as <- end; try (repeat constructor; fail).
    constructor; [discriminate|]. intros e [E|[]]. injection E as <-. constructor. }
  split; [exact I|]. split; [|split; [|split; [|split; reflexivity]]].
  - eapply p_multi; [right; right; left; reflexivity|]. repeat constructor.
  - eapply p_multi; [right; right; right; left; reflexivity|]. eapply p_multi; [left; reflexivity|]. constructor.
  - intros P. destruct (C54_membership_partial _ I) as (f & Hf). destruct (Hf 9) as [_ [_ H]].
    assert (T : errors_is 20 (Some ex_err) 9 = Ok false) by reflexivity.
    destruct (Hf 9) as [[_ A] _]. specialize (A P). destruct (Nat.le_ge_cases 20 f) as [L|L].
    + rewrite (errors_is_fuel _ _ _ _ _ T L) in A. discriminate.
    + rewrite (errors_is_fuel _ _ _ _ _ A L) in T. discriminate.
Qed.
(** newMultiError(nil), an empty combined error, panics when tested. *)
Theorem C54_empty_refuted : exists m, m = new_multi None /\ forall fuel t, errors_is (S fuel) (Some (EMulti m)) t = Panic.
Proof. exists []. split; reflexivity. Qed.
Print Assumptions C54_empty_refuted.
(** Unwrapping ends. *)
Fixpoint unwraps (n : nat) (o : option error) : option error :=
  match n with
  | O => o
  | S k => match o with
           | Some (EMulti m) => unwraps k (multi_unwrap m)
           | Some (EWraps _ e) => unwraps k (Some e)
           | _ => None
           end
  end.
Theorem C54_unwrap_ends : forall o, exists n, unwraps n o = None.
Proof.
  assert (H : forall n o, (oweight o < n)%nat -> unwraps n o = None).
  { induction n as [|n IH]; intros o W; [lia|]. destruct o as [[id|id e|m]|]; cbn [unwraps]; try reflexivity.
    - apply IH. cbn [oweight weight] in *. lia.
    - destruct m as [|h m]; [destruct n; reflexivity|]. apply IH. cbn [oweight] in W. rewrite weight_multi, lweight_cons in W.
      pose proof (unwrap_weight h m). lia. }
  intros o. exists (S (oweight o)). apply H. lia.
Qed.
Print Assumptions C54_unwrap_ends.
(** The text of a combined error shows the text of every error in it, in the order
    they were added: what is added last comes last, and nothing shown before is
    lost. *)
Theorem C54_text : forall msg m e,
  (forall x, In x m -> exists a b, multi_text msg m = a ++ msg x ++ b) /\
  (exists a, multi_text msg (multi_add m e) = multi_text msg m ++ a ++ msg e).
Proof.
  intros msg m e. split.
  - intros x H. apply in_split in H as (l & r & ->). unfold multi_text. rewrite map_app, concat_app. cbn [map concat].
    exists (concat (map (fun e => [58; 32] ++ msg e) l) ++ [58; 32]), (concat (map (fun e => [58; 32] ++ msg e) r)).
    now rewrite <- !app_assoc.
  - exists [58; 32]. unfold multi_text, multi_add. rewrite map_app, concat_app. cbn [map concat]. now rewrite app_nil_r.
Qed.
Print Assumptions C54_text.
Example C54_text_example : multi_text (fun e => match e with Some (EPlain i) => dec i | _ => [] end) [Some (EPlain 7); Some (EPlain 12)] = str ": 7: 12".
Proof. reflexivity. Qed.
