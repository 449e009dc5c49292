(** * Lemmas for C110 *)
From Verif Require Import GoBase SegModel SegSpec SegProof IoiModel IoiSpec IoiProof ItemsModel ItemsSpec ItemsProof ReadModel ReadProof AttrModel AttrSpec AttrProof Prop_Attr
  ListModel ListSpec ListProof Prop_List NameSpec.

Lemma lookup_known k l : lookup k (map (fun x => (fst x, known_of (snd x))) l) = option_map known_of (lookup k l).
Proof. induction l as [|[k' x] l IH]; [reflexivity|]. cbn [map fst snd lookup]. destruct (bseq k k'); [reflexivity|exact IH]. Qed.

Lemma text_global e : text (called (Global e)) = e_name e.
Proof. reflexivity. Qed.
Lemma text_within p e : text (called (Within p e)) = str "Program:" ++ kp_name p ++ [46] ++ e_name e.
Proof. unfold text, called. cbn [t_members t_bit map app member_text m_subs m_name]. cbn [join]. now rewrite <- app_assoc. Qed.

Lemma wanted_place T table progs tables k x : wanted T table progs tables k x ->
  exists pl, exists_at table progs tables pl /\ k = lower (text (called pl)) /\ points (known_of x) pl.
Proof.
  intros [(e & I & U & N & E)|(p & e & Ip & I & U & E)].
  - injection E as -> ->. exists (Global e). split; [now split|]. split; [reflexivity|]. now split.
  - injection E as -> ->. exists (Within p e). split; [now split|]. split; [|now split]. rewrite text_within. now rewrite !lower_app.
Qed.
Lemma place_wanted T table progs tables pl : exists_at table progs tables pl ->
  exists x, wanted T table progs tables (lower (text (called pl))) x /\ points (known_of x) pl.
Proof.
  destruct pl as [e|p e]; intro H.
  - destruct H as (I & U & N). exists (snd (global_tag T e)). split; [left; exists e; do 3 (split; [assumption|]); reflexivity|now split].
  - destruct H as (Ip & I & U). exists (snd (program_tag p e)). split; [|now split]. right. exists p, e. do 3 (split; [assumption|]).
    rewrite text_within. unfold program_tag. cbv zeta. cbn [snd]. rewrite !lower_app. reflexivity.
Qed.
Lemma in_order_distinct T table progs tables : in_order table progs tables -> distinct (wanted T table progs tables).
Proof.
  intros (_ & Un & _) k t1 t2 W1 W2.
  destruct W1 as [(e & I & U & N & E)|(p & e & Ip & I & U & E)], W2 as [(e' & I' & U' & N' & E')|(p' & e' & Ip' & I' & U' & E')].
  - injection E as -> ->. injection E' as Ek ->. assert (Global e = Global e') as [= ->]; [|reflexivity]. apply Un; [now split|now split|exact Ek].
  - injection E as -> ->. injection E' as Ek ->. assert (Global e = Within p' e') as [=]. apply Un; [now split|now split|]. rewrite text_within, text_global. rewrite Ek. now rewrite !lower_app.
  - injection E as -> ->. injection E' as Ek ->. assert (Within p e = Global e') as [=]. apply Un; [now split|now split|]. rewrite text_within, text_global, <- Ek. now rewrite !lower_app.
  - injection E as -> ->. injection E' as Ek ->. assert (Within p e = Within p' e') as [= -> ->]; [|reflexivity]. apply Un; [now split|now split|]. rewrite !text_within. rewrite !lower_app in *. f_equal. exact Ek.
Qed.

(** ** Numbers *)
Lemma increasing_inj l e e' : increasing l -> In e l -> In e' l -> e_inst e = e_inst e' -> e = e'.
Proof.
  induction l as [|a l IH]; [intros _ []|]. intros [H1 H2] [<-|I] [<-|I'] E; [reflexivity| | |now apply IH].
  - specialize (H1 _ I'). lia.
  - specialize (H1 _ I). lia.
Qed.
Lemma ids_inj l (p p' : known_program) : NoDup (map kp_id l) -> In p l -> In p' l -> kp_id p = kp_id p' -> p = p'.
Proof.
  induction l as [|a l IH]; [intros _ []|]. cbn [map]. intro N. inversion_clear N as [|? ? N1 N2]. intros [<-|I] [<-|I'] E; [reflexivity| | |now apply IH].
  - exfalso. apply N1. rewrite E. now apply in_map.
  - exfalso. apply N1. rewrite <- E. now apply in_map.
Qed.
Lemma class_inj c c' r r' : 0 <= c < 2 ^ 16 -> 0 <= c' < 2 ^ 16 -> class_segment c ++ r = class_segment c' ++ r' -> c = c' /\ r = r'.
Proof. intros H H' E. apply (f_equal class_read) in E. rewrite !class_segment_read in E by assumption. now injection E. Qed.
Lemma instance_inj c c' r r' : 0 <= c < 2 ^ 32 -> 0 <= c' < 2 ^ 32 -> instance_segment c ++ r = instance_segment c' ++ r' -> c = c' /\ r = r'.
Proof. intros H H' E. apply (f_equal instance_read) in E. rewrite !instance_segment_read in E by assumption. now injection E. Qed.

Section Controller.
Context (table : list entry) (progs : list known_program) (tables : known_program -> list entry).
Hypothesis O : in_order table progs tables.
Local Notation at_ := (exists_at table progs tables).
Lemma inst_range pl : at_ pl -> 0 <= match pl with Global e | Within _ e => e_inst e end < 2 ^ 32.
Proof.
  destruct O as (_ & _ & _ & Op & Oe & _ & Ot). destruct pl as [e|p e]; intro H.
  - destruct H as (I & _). rewrite Forall_forall in Oe. destruct (Oe e I) as (? & ? & _). unfold u in *. lia.
  - destruct H as (Ip & I & _). destruct (Ot p Ip) as [F _]. rewrite Forall_forall in F. destruct (F e I) as (? & ? & _). unfold u in *. lia.
Qed.
Lemma number_inj pl pl' : at_ pl -> at_ pl' -> number_path pl = number_path pl' -> pl = pl'.
Proof.
  intros A A'. pose proof (inst_range pl A) as R. pose proof (inst_range pl' A') as R'. destruct O as (_ & _ & Ni & Op & Oe & Ie & Ot). rewrite Forall_forall in Op.
  destruct pl as [e|p e], pl' as [e'|p' e']; cbn [number_path]; unfold program_path; rewrite <- ?app_assoc; intro E.
  - apply class_inj in E as [_ E]; [|lia|lia]. rewrite <- (app_nil_r (instance_segment (e_inst e))), <- (app_nil_r (instance_segment (e_inst e'))) in E.
    apply instance_inj in E as [E _]; [|lia|lia]. f_equal. destruct A as (I & _), A' as (I' & _). now apply (increasing_inj table).
  - apply class_inj in E as [E _]; lia.
  - apply class_inj in E as [E _]; lia.
  - destruct A as (Ip & I & _), A' as (Ip' & I' & _). destruct (Op p Ip) as (Rp & _), (Op p' Ip') as (Rp' & _).
    apply class_inj in E as [_ E]; [|lia|lia]. apply instance_inj in E as [Ei E]; [|lia|lia]. assert (p = p') by now apply (ids_inj progs). subst p'.
    apply class_inj in E as [_ E]; [|lia|lia]. rewrite <- (app_nil_r (instance_segment (e_inst e))), <- (app_nil_r (instance_segment (e_inst e'))) in E.
    apply instance_inj in E as [E _]; [|lia|lia]. f_equal. destruct (Ot p Ip) as [_ Inc]. now apply (increasing_inj (tables p)).
Qed.
Lemma number_head pl : exists r, number_path pl = 0x20 :: r.
Proof. destruct pl as [e|p e]; cbn [number_path]; unfold program_path; eexists; reflexivity. Qed.
Lemma encode_head t : valid_tag t -> exists r, encode t = 0x91 :: r.
Proof. intros (N & _). destruct t as [[|m ms] b]; [now destruct N|]. eexists. reflexivity. Qed.
Lemma encode_number t pl : valid_tag t -> encode t <> number_path pl.
Proof. intros V E. destruct (encode_head t V) as (r & Er). destruct (number_head pl) as (r' & Er'). rewrite Er, Er' in E. discriminate. Qed.
Lemma called_bit pl : t_bit (called pl) = None.
Proof. now destruct pl. Qed.
Lemma no_bit_valid t : valid_tag t -> valid_tag (no_bit t).
Proof. intros (A & B & _). now repeat split. Qed.
Lemma encode_same t t' : valid_tag t -> valid_tag t' -> t_bit t' = None -> encode t = encode t' <-> lower (text t') = lower (text (no_bit t)).
Proof.
  intros V V' B. pose proof (no_bit_valid t V) as Vn. change (encode t) with (encode (no_bit t)). split; intro E.
  - rewrite !lower_text by assumption. f_equal. apply encode_inj in E; [|assumption..]. unfold lower_tag in *. cbn [t_members no_bit] in E.
    rewrite B. unfold no_bit. cbn [t_members t_bit]. now rewrite E.
  - pose proof (encode_tag _ V') as E1. pose proof (encode_tag _ Vn) as E2. rewrite E in E1. rewrite E1 in E2. now injection E2.
Qed.
Lemma known_bytes pl x : at_ pl -> points x pl -> known_tag_bytes x = number_path pl.
Proof.
  intros A Px. pose proof (inst_range pl A) as R. destruct O as (_ & _ & _ & Op & _). rewrite Forall_forall in Op. unfold known_tag_bytes.
  destruct pl as [e|p e]; destruct Px as [-> ->]; cbn [number_path].
  - rewrite class_bytes_spec by (unfold obj_symbol; lia). now rewrite instance_bytes_spec by exact R.
  - destruct A as (Ip & _). rewrite class_bytes_spec by (unfold obj_symbol; lia). rewrite instance_bytes_spec by exact R. f_equal. destruct (Op p Ip) as (Rp & _).
    unfold program_bytes, program_path. assert (E : kp_id p =? 0 = false) by (apply Z.eqb_neq; lia). rewrite E. rewrite class_bytes_spec by lia. now rewrite instance_bytes_spec by lia.
Qed.

Lemma addressed ops t d : agrees table progs tables (cl_known (cl_run ops)) -> valid_tag t ->
  exists i, fst (new_ioi (cl_run ops) (text t) d) = Ok i /\
    ioi_bit i = match t_bit t with Some _ => true | None => false end /\ ioi_bitpos i = match t_bit t with Some b => b | None => 0 end /\
    forall pl, refers table progs tables (ioi_buf i) pl <-> at_ pl /\ lower (text (called pl)) = lower (text (no_bit t)).
Proof.
  intros Ag V. rewrite new_ioi_result by apply cl_run_cache_ok.
  assert (F : forall i, fast_path (cl_run ops) (lower (text t)) d = Some i -> exists x, lookup (lower (text t)) (cl_known (cl_run ops)) = Some x /\ i = {| ioi_buf := known_tag_bytes x; ioi_bit := false; ioi_bitpos := 0 |}).
  { unfold fast_path. intros i. destruct (20 <? _); [|discriminate]. destruct (lookup _ _) as [x|]; [|discriminate]. destruct (_ && _ && _ && _); [|discriminate]. intros [= <-]. now exists x. }
  destruct O as (Va & Un & _).
  destruct (fast_path (cl_run ops) (lower (text t)) d) as [i|].
  - destruct (F i eq_refl) as (x & L & ->). destruct (Ag _ _ L) as (pl0 & A0 & K0 & P0). eexists. split; [reflexivity|]. cbn [ioi_buf ioi_bit ioi_bitpos].
    assert (B : t_bit t = None).
    { pose proof (encode_tag _ V) as E1. pose proof (encode_tag _ (Va _ A0)) as E2. rewrite <- K0, E1 in E2. unfold bit_sel in E2. rewrite called_bit in E2. destruct (t_bit t); [|reflexivity]. injection E2. intros. discriminate. }
    assert (Et : no_bit t = t) by (destruct t; cbn in B; now subst). rewrite B, Et. split; [reflexivity|]. split; [reflexivity|]. intro pl. rewrite (known_bytes pl0 x A0 P0). split.
    + intros (A & [E|E]); [exfalso; now apply (encode_number (called pl) pl0 (Va _ A))|]. split; [exact A|]. rewrite (number_inj pl0 pl A0 A E) in K0. now symmetry.
    + intros (A & E). split; [exact A|]. right. f_equal. apply Un; [exact A0|exact A|]. now rewrite <- K0, E.
  - rewrite (encode_tag _ V). eexists. split; [reflexivity|]. cbn [ioi_buf ioi_bit ioi_bitpos]. unfold bit_sel. split; [now destruct (t_bit t)|]. split; [now destruct (t_bit t)|].
    intro pl. split.
    + intros (A & [E|E]); [|exfalso; now apply (encode_number t pl)]. split; [exact A|]. apply encode_same; [exact V|now apply Va|apply called_bit|exact E].
    + intros (A & E). split; [exact A|]. left. apply encode_same; [exact V|now apply Va|apply called_bit|exact E].
Qed.
End Controller.
