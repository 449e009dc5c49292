(** * C112: what a client keeps of the names it was asked for *)
From Verif Require Import GoBase IoiModel IoiSpec IoiProof.

(** The names asked for in a history, in lower case; how many different ones. *)
Fixpoint asked (ops : list cl_op) : list bytes :=
  match ops with
  | [] => []
  | OpLookup p _ :: r => lower p :: asked r
  | _ :: r => asked r
  end.
Fixpoint different (l : list bytes) : list bytes :=
  match l with
  | [] => []
  | a :: r => if existsb (bseq a) r then different r else a :: different r
  end.

Lemma asked_app a b : asked (a ++ b) = asked a ++ asked b.
Proof. induction a as [|[p d|k|m] a IH]; cbn [app asked]; [reflexivity|now rewrite IH|exact IH|exact IH]. Qed.
Lemma different_in l a : In a l -> In a (different l).
Proof.
  induction l as [|b l IH]; [intros []|]. cbn [different]. destruct (existsb (bseq b) l) eqn:E; intros [->|I].
  - apply existsb_exists in E as (x & I & X). apply bseq_spec in X. subst x. now apply IH.
  - now apply IH.
  - now left.
  - right. now apply IH.
Qed.
Lemma lookup_in {A} k (m : list (bytes * A)) : In k (map fst m) <-> exists x, lookup k m = Some x.
Proof.
  induction m as [|[k' v] m IH]; cbn [map fst lookup]; [split; [intros []|intros (x & [=])]|]. destruct (bseq k k') eqn:E.
  - apply bseq_spec in E. subst. split; [intros _; now exists v|intros _; now left].
  - rewrite <- IH. split; [intros [->|I]; [|exact I]|now right]. exfalso. assert (bseq k k = true) by now apply bseq_spec. congruence.
Qed.

(** ** C112

    However long a client is used, it keeps one path for each name it was asked for,
    upper and lower case being the same name: there are never more than different
    names, each is of a name asked for and is the path of that name. *)
Theorem C112_one_each : forall ops,
  let kept := cl_cache (cl_run ops) in
  NoDup (map fst kept) /\ incl (map fst kept) (asked ops) /\ (forall k i, lookup k kept = Some i -> build_ioi k = Ok i) /\
  (length kept <= length (different (asked ops)))%nat.
Proof.
  intros ops kept. assert (P : NoDup (map fst kept) /\ incl (map fst kept) (asked ops)).
  { subst kept. induction ops as [|o ops IH] using rev_ind; [split; [constructor|intros a []]|]. rewrite cl_run_snoc, asked_app. destruct IH as (N & I).
    assert (Same : NoDup (map fst (cl_cache (cl_run ops))) /\ incl (map fst (cl_cache (cl_run ops))) (asked ops ++ asked [o])) by (split; [exact N|now apply incl_appl]).
    destruct o as [p d|k|m]; cbn [cl_step cl_cache]; [|exact Same|exact Same].
    rewrite new_ioi_eq. destruct (fast_path (cl_run ops) (lower p) d); [exact Same|]. destruct (lookup (lower p) (cl_cache (cl_run ops))) as [i|] eqn:L; [exact Same|].
    destruct (build_ioi (lower p)) as [i| | |]; try exact Same. cbn [snd cl_cache map fst]. split.
    - constructor; [|exact N]. intro H. apply lookup_in in H as (x & H). congruence.
    - intros a [<-|H]; apply in_or_app; [right; now left|left; now apply I]. }
  destruct P as (N & I). split; [exact N|]. split; [exact I|]. split; [apply cl_run_cache_ok|].
  rewrite <- (map_length fst kept). apply NoDup_incl_length; [exact N|]. intros a H. now apply different_in, I.
Qed.
Print Assumptions C112_one_each.

(** Asking again, in whatever case, adds nothing if the path was kept, and the
    answer is the same. *)
Theorem C112_again : forall ops p p' d d', lower p = lower p' -> In (lower p) (map fst (cl_cache (cl_run ops))) ->
  snd (new_ioi (cl_run ops) p' d') = cl_run ops /\ (d = d' -> fst (new_ioi (cl_run ops) p d) = fst (new_ioi (cl_run ops) p' d')).
Proof.
  intros ops p p' d d' E I. split.
  - rewrite new_ioi_eq. destruct (fast_path (cl_run ops) (lower p') d'); [reflexivity|]. rewrite <- E. apply lookup_in in I as (x & ->). reflexivity.
  - intros <-. rewrite !new_ioi_result by apply cl_run_cache_ok. now rewrite E.
Qed.
Print Assumptions C112_again.

Definition often : list cl_op := [OpLookup (str "Tag") 0xC4; OpLookup (str "tag") 0xC4; OpFirmware 32; OpLookup (str "TAG") 0xA0; OpLookup (str "other[3].x") 0xC4; OpLookup (str "bad]") 0xC4].
Example ex_C112 : map fst (cl_cache (cl_run often)) = [str "other[3].x"; str "tag"] /\ different (asked often) = [str "tag"; str "other[3].x"; str "bad]"] /\
  In (lower (str "tAG")) (map fst (cl_cache (cl_run often))) /\ snd (new_ioi (cl_run often) (str "Tag") 0xC4) = cl_run often.
Proof. split; [vm_compute; reflexivity|]. split; [vm_compute; reflexivity|]. split; [right; left; vm_compute; reflexivity|vm_compute; reflexivity]. Qed.
