(** * C110: names of listed tags *)
From Coq Require Import Permutation.
From Verif Require Import GoBase SegModel SegSpec SegProof IoiModel IoiSpec IoiProof ItemsModel ItemsSpec ItemsProof ReadModel ReadProof AttrModel AttrSpec AttrProof Prop_Attr
  ListModel ListSpec ListProof Prop_List NameSpec NameProof.

(** ** C110

    Full statement: after a listing, every path the client makes for a name refers
    to the controller's tag of that name, in any case of letters, and to no other.
    Proved for listings as in C50, as long as the tags listed before are still
    there and where they were: none was removed or got another instance
    ([C110_stale_refuted]: the tables of earlier listings are only added to). *)
Definition known (w : lists) : list (bytes * known_tag) := cl_known (listed_client 0 w []).
Definition finds table progs tables (known : list (bytes * known_tag)) : Prop :=
  forall ops t d, cl_known (cl_run ops) = known -> valid_tag t ->
  exists i, fst (new_ioi (cl_run ops) (text t) d) = Ok i /\
    ioi_bit i = match t_bit t with Some _ => true | None => false end /\ ioi_bitpos i = match t_bit t with Some b => b | None => 0 end /\
    forall pl, refers table progs tables (ioi_buf i) pl <-> exists_at table progs tables pl /\ lower (text (called pl)) = lower (text (no_bit t)).

Theorem C110_listed_partial : forall S (ctl : controller S) otid T table progs tables order start w table0 progs0 tables0,
  start = 0 \/ start = 1 -> in_order table progs tables -> NoDup (map kp_name progs) ->
  serves_symbols ctl otid [] table two -> serves_programs ctl otid progs ->
  (forall p, In p progs -> serves_symbols ctl otid (program_path p) (tables p) moves) ->
  serves_templates ctl otid T -> client_templates T (l_lists w) -> (forall l, Permutation (order l) l) ->
  agrees table0 progs0 tables0 (known (l_lists w)) ->
  (forall pl, exists_at table0 progs0 tables0 pl -> exists_at table progs tables pl) ->
  exists n, forall fuel, (n <= fuel)%nat -> exists w1,
    list_all_tags fuel order ctl otid start w = (Ok tt, w1) /\
    agrees table progs tables (known (l_lists w1)) /\ finds table progs tables (known (l_lists w1)) /\
    (forall pl, exists_at table progs tables pl -> exists x, lookup (lower (text (called pl))) (known (l_lists w1)) = Some x /\ points x pl) /\
    client_templates T (l_lists w1).
Proof.
  intros S ctl otid T table progs tables order start w table0 progs0 tables0 Hst O Nn Sv Sp Ss HT Ci Or Ag Still.
  pose proof O as (Va & Un & Ni & Op & Oe & Ie & Ot).
  destruct (C50_tags_partial S ctl otid T table progs tables order start w Hst Oe Ie Op Nn Ot Sv Sp Ss HT Ci Or (in_order_distinct T table progs tables O)) as (n & Hn).
  exists n. intros fuel F. destruct (Hn fuel F) as (w1 & E & (R1 & R2 & _) & _ & Ct). exists w1. split; [exact E|].
  assert (A : agrees table progs tables (known (l_lists w1))).
  { intros k x. unfold known, listed_client. cbn [cl_known]. rewrite lookup_known. intro L. destruct (lookup k (l_tags (l_lists w1))) as [y|] eqn:Ly; [|discriminate]. injection L as <-.
    assert (D : (exists pl, exists_at table progs tables pl /\ k = lower (text (called pl))) \/ ~ (exists pl, exists_at table progs tables pl /\ k = lower (text (called pl))) -> 
      exists pl, exists_at table progs tables pl /\ k = lower (text (called pl)) /\ points (known_of y) pl).
    { intros [(pl & Apl & ->)|N].
      - destruct (place_wanted T table progs tables pl Apl) as (x & W & Px). exists pl. split; [exact Apl|]. split; [reflexivity|]. apply R1 in W. rewrite Ly in W. now injection W as ->.
      - rewrite R2 in Ly by (intros t W; apply N; destruct (wanted_place _ _ _ _ _ _ W) as (pl & A1 & A2 & _); now exists pl).
        destruct (Ag k (known_of y)) as (pl & Apl & Ek & Ppl); [unfold known, listed_client; cbn [cl_known]; rewrite lookup_known, Ly; reflexivity|].
        exists pl. split; [now apply Still|now split]. }
    apply D. clear D.
    assert (Dec : forall l, (exists e, In e l /\ user_tag (e_name e) /\ ~ program_entry (e_name e) /\ k = lower (e_name e)) \/ ~ (exists e, In e l /\ user_tag (e_name e) /\ ~ program_entry (e_name e) /\ k = lower (e_name e))).
    { intro l. destruct (existsb (fun e => keep e && bseq k (lower (e_name e))) l) eqn:X.
      - left. apply existsb_exists in X as (e & I & X). apply andb_true_iff in X as [X1 X2]. apply keep_spec in X1 as [U N]. apply bseq_spec in X2. now exists e.
      - right. intros (e & I & U & N & K). assert (existsb (fun e => keep e && bseq k (lower (e_name e))) l = true); [|congruence]. apply existsb_exists. exists e. split; [exact I|].
        apply andb_true_iff. split; [now apply keep_spec|now apply bseq_spec]. }
    assert (Dep : forall p l, (exists e, In e l /\ user_tag (e_name e) /\ k = lower (text (called (Within p e)))) \/ ~ (exists e, In e l /\ user_tag (e_name e) /\ k = lower (text (called (Within p e))))).
    { intros p l. destruct (existsb (fun e => is_valid (e_name e) && bseq k (lower (text (called (Within p e))))) l) eqn:X.
      - left. apply existsb_exists in X as (e & I & X). apply andb_true_iff in X as [X1 X2]. apply is_valid_spec in X1. apply bseq_spec in X2. now exists e.
      - right. intros (e & I & U & K). assert (existsb (fun e => is_valid (e_name e) && bseq k (lower (text (called (Within p e))))) l = true); [|congruence]. apply existsb_exists. exists e. split; [exact I|].
        apply andb_true_iff. split; [now apply is_valid_spec|now apply bseq_spec]. }
    assert (Deq : forall l, (exists p e, In p l /\ In e (tables p) /\ user_tag (e_name e) /\ k = lower (text (called (Within p e)))) \/ ~ (exists p e, In p l /\ In e (tables p) /\ user_tag (e_name e) /\ k = lower (text (called (Within p e))))).
    { induction l as [|p l IH]; [right; intros (p & e & [] & _)|]. destruct IH as [(p' & e & I & H)|N]; [left; exists p', e; split; [now right|exact H]|].
      destruct (Dep p (tables p)) as [(e & H)|N']; [left; exists p, e; split; [now left|exact H]|]. right. intros (p' & e & [<-|I] & H); [apply N'; now exists e|apply N; now exists p', e]. }
    destruct (Dec table) as [(e & I & U & N & K)|N1]; [left; exists (Global e); now split|].
    destruct (Deq progs) as [(p & e & Ip & I & U & K)|N2]; [left; exists (Within p e); now split|].
    right. intros ([e|p e] & Apl & K); [apply N1; destruct Apl as (I & U & N); now exists e|apply N2; destruct Apl as (Ip & I & U); now exists p, e]. }
  split; [exact A|]. split; [|split; [|exact Ct]].
  - intros ops t d Ek V. apply addressed; [exact O|now rewrite Ek|exact V].
  - intros pl Apl. destruct (place_wanted T table progs tables pl Apl) as (x & W & Px). exists (known_of x). split; [|exact Px].
    unfold known, listed_client. cbn [cl_known]. rewrite lookup_known. now rewrite (R1 _ _ W).
Qed.
Print Assumptions C110_listed_partial.

(** The same of a client that lists nothing more, whatever it knows, as long as it
    agrees with the controller. *)
Theorem C110_agreeing_partial : forall table progs tables k, in_order table progs tables -> agrees table progs tables k -> finds table progs tables k.
Proof. intros table progs tables k O A ops t d E V. apply addressed; [exact O|now rewrite E|exact V]. Qed.
Print Assumptions C110_agreeing_partial.

(** ** Examples: a tag is removed, another gets its instance *)
Definition before : list entry := [Entry 3 (str "Old") 0xC4 0 0 0; Entry 4 (str "Stay") 0xC4 0 0 0].
Definition added : list entry := [Entry 3 (str "Old") 0xC4 0 0 0; Entry 4 (str "Stay") 0xC4 0 0 0; Entry 70000 (str "Late") 0xC3 10 0 0].
Definition replaced : list entry := [Entry 3 (str "New") 0xC4 0 0 0; Entry 4 (str "Stay") 0xC4 0 0 0].
Definition main_tags : list entry := [Entry 3 (str "Old") 0xC4 0 0 0; Entry 5 (str "Speed") 0xCA 0 0 0].
Definition plant (table : list entry) : controller unit := device 2 2 table (Some [demo_main]) (fun i => if i =? 300 then main_tags else []) (fun _ => []) (fun _ => None).
Definition sub_tags (p : known_program) : list entry := main_tags.

Ltac members H := repeat (destruct H as [<-|H]); [..|destruct H].
Ltac name_ok := split; [vm_compute; intuition discriminate|split;
  [match goal with |- Forall name_char ?n => let v := eval vm_compute in n in change n with v end; repeat (apply Forall_cons; [unfold name_char; lia|]); apply Forall_nil
  |let E := fresh in intros (? & ? & E & ?); vm_compute in E; injection E as <- _; lia]].
Ltac tag_ok := unfold called; split; [discriminate|split; [|exact Logic.I]]; cbn [t_members]; repeat (apply Forall_cons; [split; [name_ok|apply Forall_nil]|]); apply Forall_nil.
Lemma plant_order table : table = before \/ table = added \/ table = replaced -> in_order table [demo_main] sub_tags.
Proof.
  intro C. assert (Main : Forall entry_ok main_tags /\ increasing main_tags).
  { split; [repeat (apply Forall_cons; [unfold entry_ok, u; cbn; lia|]); apply Forall_nil|].
    unfold main_tags. cbn [increasing In]. repeat (split; [intros b H; repeat (destruct H as [<-|H]; [reflexivity|]); destruct H|]). exact Logic.I. }
  assert (Tab : Forall entry_ok table /\ increasing table).
  { destruct C as [->|[->| ->]]; (split; [repeat (apply Forall_cons; [unfold entry_ok, u; cbn; lia|]); apply Forall_nil|]);
    unfold before, added, replaced; cbn [increasing In]; repeat (split; [intros b H; repeat (destruct H as [<-|H]; [reflexivity|]); destruct H|]); exact Logic.I. }
  split; [|split; [|split; [|split; [|split; [apply Tab|split; [apply Tab|intros p _; exact Main]]]]]].
  - intros [e|p e] A.
    + destruct A as (I & _). destruct C as [->|[->| ->]]; cbn [before added replaced In] in I; members I; tag_ok.
    + destruct A as ([<-|[]] & I & _). cbn [sub_tags main_tags In] in I. members I; tag_ok.
  - intros [e|p e] [e'|p' e'] A A' E.
    + destruct A as (I & _), A' as (I' & _). rewrite !text_global in E. destruct C as [->|[->| ->]]; cbn [before added replaced In] in I, I'; members I; members I'; try reflexivity; discriminate E.
    + exfalso. destruct A as (I & _), A' as ([<-|[]] & I' & _). destruct C as [->|[->| ->]]; cbn [before added replaced sub_tags main_tags In] in I, I'; members I; members I'; discriminate E.
    + exfalso. destruct A as ([<-|[]] & I & _), A' as (I' & _). destruct C as [->|[->| ->]]; cbn [before added replaced sub_tags main_tags In] in I, I'; members I; members I'; discriminate E.
    + destruct A as ([<-|[]] & I & _), A' as ([<-|[]] & I' & _). cbn [sub_tags main_tags In] in I, I'; members I; members I'; try reflexivity; discriminate E.
  - cbn [map]. constructor; [intros []|constructor].
  - apply Forall_cons; [exact demo_main_ok|apply Forall_nil].
Qed.
Lemma plant_moves start page more : 1 <= start -> page_of main_tags start page more -> more <> [] -> length page = 2%nat -> moves start page.
Proof.
  unfold page_of, main_tags. cbn [filter e_inst]. intros R E N L. exfalso. destruct page as [|a [|b [|c page]]]; try discriminate. destruct more as [|x more]; [congruence|].
  destruct (start <=? 3), (start <=? 5); discriminate E.
Qed.
Lemma plant_serves table otid : len (concat (map wire_entry table)) < 60000 ->
  serves_symbols (plant table) otid [] table two /\ serves_programs (plant table) otid [demo_main] /\
  (forall p, In p [demo_main] -> serves_symbols (plant table) otid (program_path p) (sub_tags p) moves) /\ serves_templates (plant table) otid (fun _ => None).
Proof.
  intro L. split; [|split; [|split]].
  - apply (serves_weaken _ _ _ _ _ (fun _ page => length page = 2%nat)); [intros ? ? ? _ _ _ H; unfold two; lia|]. exact (device_symbols 2 2 table (Some [demo_main]) (fun i => if i =? 300 then main_tags else []) (fun _ => []) (fun _ => None) otid L).
  - apply (device_programs 2 2 table (Some [demo_main]) (fun i => if i =? 300 then main_tags else []) (fun _ => []) (fun _ => None) otid [demo_main]); [reflexivity|vm_compute; reflexivity].
  - intros p [<-|[]]. apply (serves_weaken _ _ _ _ _ (fun _ page => length page = 2%nat)); [exact plant_moves|].
    apply (device_program 2 2 table (Some [demo_main]) (fun i => if i =? 300 then main_tags else []) (fun _ => []) (fun _ => None) otid demo_main demo_main_ok). vm_compute. reflexivity.
  - intros id R. exact (device_no_template 2 2 table (Some [demo_main]) (fun i => if i =? 300 then main_tags else []) (fun _ => []) (fun _ => None) otid id ltac:(lia) eq_refl).
Qed.
Definition one_name (n : bytes) : tag := {| t_members := [{| m_name := n; m_subs := [] |}]; t_bit := None |}.

(** A tag is added, and the tags listed again: every name finds its tag. *)
Example ex_C110 : exists n, forall fuel, (n <= fuel)%nat -> exists w1,
  list_all_tags fuel (fun l => l) (plant before) 7 0 fresh_client = (Ok tt, w1) /\ finds before [demo_main] sub_tags (known (l_lists w1)) /\
  exists n', forall fuel', (n' <= fuel')%nat -> exists w2,
  list_all_tags fuel' (fun l => l) (plant added) 7 0 w1 = (Ok tt, w2) /\ finds added [demo_main] sub_tags (known (l_lists w2)).
Proof.
  destruct (plant_serves before 7) as (S1 & S2 & S3 & S4); [vm_compute; reflexivity|]. destruct (plant_serves added 7) as (Q1 & Q2 & Q3 & Q4); [vm_compute; reflexivity|].
  assert (N1 : NoDup (map kp_name [demo_main])) by (constructor; [intros []|constructor]).
  destruct (C110_listed_partial unit (plant before) 7 (fun _ => None) before [demo_main] sub_tags (fun l => l) 0 fresh_client [] [] sub_tags) as (n & Hn);
    [now left|apply plant_order; now left|exact N1|exact S1|exact S2|exact S3|exact S4|intros id t E; discriminate E|intro l; apply Permutation_refl|intros k x E; discriminate E|intros [e|p e] H; destruct H as ([] & _)|].
  exists n. intros fuel F. destruct (Hn fuel F) as (w1 & E1 & A1 & F1 & _ & C1). exists w1. split; [exact E1|]. split; [exact F1|].
  destruct (C110_listed_partial unit (plant added) 7 (fun _ => None) added [demo_main] sub_tags (fun l => l) 0 w1 before [demo_main] sub_tags) as (n' & Hn');
    [now left|apply plant_order; right; now left|exact N1|exact Q1|exact Q2|exact Q3|exact Q4|exact C1|intro l; apply Permutation_refl|exact A1| |].
  - intros [e|p e] H; [|exact H]. destruct H as (I & U). split; [|exact U]. cbn [before added In] in *. intuition.
  - exists n'. intros fuel' F'. destruct (Hn' fuel' F') as (w2 & E2 & _ & F2 & _). exists w2. now split.
Qed.
(** The paths themselves: by number, by name, and of a program. *)
Definition listed_before : lists := l_lists (snd (list_all_tags 20 (fun l => l) (plant before) 7 0 fresh_client)).
Example ex_C110_paths :
  fst (new_ioi (cl_run [OpRefresh (known listed_before); OpFirmware 32]) (str "OLD") 0xC4) = Ok {| ioi_buf := [0x20; 0x6B; 0x24; 3]; ioi_bit := false; ioi_bitpos := 0 |} /\
  fst (new_ioi (cl_run [OpRefresh (known listed_before); OpFirmware 32]) (str "Program:Main.old") 0xC4) = Ok {| ioi_buf := [0x20; 0x68; 0x25; 0; 44; 1; 0x20; 0x6B; 0x24; 3]; ioi_bit := false; ioi_bitpos := 0 |} /\
  refers before [demo_main] sub_tags [0x20; 0x6B; 0x24; 3] (Global (Entry 3 (str "Old") 0xC4 0 0 0)) /\
  refers before [demo_main] sub_tags [0x20; 0x68; 0x25; 0; 44; 1; 0x20; 0x6B; 0x24; 3] (Within demo_main (Entry 3 (str "Old") 0xC4 0 0 0)).
Proof.
  assert (U : user_tag (str "Old") /\ ~ program_entry (str "Old")) by (apply (keep_spec (Entry 3 (str "Old") 0xC4 0 0 0)); reflexivity). destruct U as [U N].
  split; [vm_compute; reflexivity|]. split; [vm_compute; reflexivity|]. split; (split; [|right; vm_compute; reflexivity]).
  - split; [now left|now split].
  - split; [now left|]. split; [now left|exact U].
Qed.

(** ** Refuted: the tag Old is removed and its instance given to New.  Both before
    and after the change the tags are listed; Old is known still, and a read or
    write of it goes to New. *)
Theorem C110_stale_refuted : exists S (ctl ctl' : controller S) otid table table' progs tables w w1 w2 ops t pl i,
  in_order table progs tables /\ in_order table' progs tables /\
  serves_symbols ctl otid [] table two /\ serves_programs ctl otid progs /\
  serves_symbols ctl' otid [] table' two /\ serves_programs ctl' otid progs /\
  (forall p, In p progs -> serves_symbols ctl otid (program_path p) (tables p) moves /\ serves_symbols ctl' otid (program_path p) (tables p) moves) /\
  known (l_lists w) = [] /\
  list_all_tags 20 (fun l => l) ctl otid 0 w = (Ok tt, w1) /\ list_all_tags 20 (fun l => l) ctl' otid 0 w1 = (Ok tt, w2) /\
  cl_known (cl_run ops) = known (l_lists w2) /\ valid_tag t /\
  (forall q, exists_at table' progs tables q -> lower (text (called q)) <> lower (text t)) /\
  fst (new_ioi (cl_run ops) (text t) 0xC4) = Ok i /\ refers table' progs tables (ioi_buf i) pl.
Proof.
  set (w1 := snd (list_all_tags 20 (fun l => l) (plant before) 7 0 fresh_client)). set (w2 := snd (list_all_tags 20 (fun l => l) (plant replaced) 7 0 w1)).
  destruct (plant_serves before 7) as (S1 & S2 & S3 & _); [vm_compute; reflexivity|]. destruct (plant_serves replaced 7) as (Q1 & Q2 & Q3 & _); [vm_compute; reflexivity|].
  exists unit, (plant before), (plant replaced), 7, before, replaced, [demo_main], sub_tags, fresh_client, w1, w2, [OpRefresh (known (l_lists w2)); OpFirmware 32], (one_name (str "Old")),
    (Global (Entry 3 (str "New") 0xC4 0 0 0)), {| ioi_buf := [0x20; 0x6B; 0x24; 3]; ioi_bit := false; ioi_bitpos := 0 |}.
  split; [apply plant_order; now left|]. split; [apply plant_order; right; now right|]. split; [exact S1|]. split; [exact S2|]. split; [exact Q1|]. split; [exact Q2|].
  split; [intros p I; split; [now apply S3|now apply Q3]|]. split; [reflexivity|]. split; [vm_compute; reflexivity|]. split; [vm_compute; reflexivity|]. split; [reflexivity|].
  split; [unfold one_name; tag_ok|]. split.
  - intros [e|p e] A E.
    + destruct A as (I & _). cbn [replaced In] in I. members I; discriminate E.
    + destruct A as ([<-|[]] & I & _). cbn [sub_tags main_tags In] in I. members I; discriminate E.
  - split; [vm_compute; reflexivity|]. split; [|right; vm_compute; reflexivity].
    assert (U : user_tag (str "New") /\ ~ program_entry (str "New")) by (apply (keep_spec (Entry 3 (str "New") 0xC4 0 0 0)); reflexivity). split; [now left|exact U].
Qed.
Print Assumptions C110_stale_refuted.
