(** * GoBase: the part of the Go language and its standard library the model uses.

    All Go integers are [Z]; every place where Go wraps around is written out
    ([mod 256], [sgn 16], ...).  Bytes, byte slices and strings are [list Z]
    whose elements are meant to be in [0, 256) ([bytes_ok]).  Functions that can
    return an error or panic return [res]. *)
From Coq Require Export ZArith List Bool Lia.
From Coq Require String Ascii.
Export String.StringSyntax.
From Coq Require Export ZifyBool ZifyNat.
Export ListNotations.
Open Scope Z_scope.

Ltac Zify.zify_post_hook ::= Z.div_mod_to_equations.

(** ** Outcomes *)

(** Error values.  Only the distinctions the code makes are kept: end of data
    with nothing read ([EEof], io.EOF), end of data in the middle of a value
    ([EShort], io.ErrUnexpectedEOF or "item out of data"), a non-zero CIP status
    ([EStatus]), everything else ([EMsg]). *)
Inductive err : Type := EEof | EShort | EStatus (code : Z) | EMsg.

(** Result of a Go call: a value, a returned error, a run-time panic, or (for
    functions that recurse without a bound) running out of the fuel the model
    gave it. *)
Inductive res (A : Type) : Type :=
| Ok (a : A) | Err (e : err) | Panic | OutOfFuel.
Arguments Ok {A} a. Arguments Err {A} e. Arguments Panic {A}. Arguments OutOfFuel {A}.

Definition bind {A B} (r : res A) (k : A -> res B) : res B :=
  match r with Ok a => k a | Err e => Err e | Panic => Panic | OutOfFuel => OutOfFuel end.
Notation "'let*' p := e 'in' k" := (bind e (fun p => k))
  (at level 200, p pattern, e at level 200, k at level 200, right associativity).

Definition is_ok {A} (r : res A) : bool := match r with Ok _ => true | _ => false end.
Definition is_err {A} (r : res A) : bool := match r with Err _ => true | _ => false end.

(** ** Bytes *)

Notation bytes := (list Z).
Definition byte_ok (b : Z) : Prop := 0 <= b < 256.
Definition bytes_ok (l : bytes) : Prop := Forall byte_ok l.
Definition len {A} (l : list A) : Z := Z.of_nat (List.length l).

(** A Go string literal as its bytes. *)
Fixpoint str (s : String.string) : bytes :=
  match s with
  | String.EmptyString => []
  | String.String a r => Z.of_N (Ascii.N_of_ascii a) :: str r
  end.
Arguments str s%string_scope.

Fixpoint bseq (a b : bytes) : bool :=
  match a, b with
  | [], [] => true
  | x :: a', y :: b' => (x =? y) && bseq a' b'
  | _, _ => false
  end.

Definition zeros (n : nat) : bytes := repeat 0 n.

(** Little-endian encoding of the low [8*n] bits of [z]
    (binary.LittleEndian.PutUint16/32/64 and binary.Write of fixed-size ints). *)
Fixpoint le (n : nat) (z : Z) : bytes :=
  match n with
  | O => []
  | S k => (z mod 256) :: le k (z / 256)
  end.

(** Little-endian decoding. *)
Fixpoint unle (l : bytes) : Z :=
  match l with
  | [] => 0
  | b :: r => b + 256 * unle r
  end.

(** Two's complement reading of the low [bits] bits: Go's intN(x) conversion. *)
Definition sgn (bits : Z) (z : Z) : Z :=
  let m := z mod 2 ^ bits in
  if m <? 2 ^ (bits - 1) then m else m - 2 ^ bits.

(** Go's uintN(x) conversion. *)
Definition uns (bits : Z) (z : Z) : Z := z mod 2 ^ bits.

(** Number of zero bytes that [copy] into a fixed buffer of size [n] leaves. *)
Definition fit (n : nat) (l : bytes) : bytes :=
  firstn n l ++ zeros (n - List.length l).

(** binary.Read of [n] bytes from a reader whose unread bytes are [r]
    (io.ReadFull semantics). *)
Definition rd (n : nat) (r : bytes) : res (bytes * bytes) :=
  if (n <=? List.length r)%nat then Ok (firstn n r, skipn n r)
  else match r with [] => Err EEof | _ => Err EShort end.

(** ** Strings *)

Definition ch (s : String.string) : Z := match str s with c :: _ => c | [] => 0 end.
Arguments ch s%string_scope.

(** strings.ToLower on ASCII bytes.  Non-ASCII bytes are left alone (Go would
    map some non-ASCII letters): see DESIGN.md. *)
Definition lower_c (c : Z) : Z := if (65 <=? c) && (c <=? 90) then c + 32 else c.
Definition lower (s : bytes) : bytes := map lower_c s.

(** strings.Split with a one-byte separator. *)
Fixpoint split (c : Z) (s : bytes) : list bytes :=
  match s with
  | [] => [[]]
  | x :: t =>
      if x =? c then [] :: split c t
      else match split c t with
           | [] => [[x]]
           | h :: r => (x :: h) :: r
           end
  end.

(** strings.Join with a one-byte separator. *)
Fixpoint join (c : Z) (parts : list bytes) : bytes :=
  match parts with
  | [] => []
  | [p] => p
  | p :: r => p ++ c :: join c r
  end.

(** strings.Contains / strings.Index for one byte. *)
Fixpoint index_of (c : Z) (s : bytes) : option nat :=
  match s with
  | [] => None
  | x :: t => if x =? c then Some O else option_map S (index_of c t)
  end.
Definition contains (c : Z) (s : bytes) : bool := existsb (Z.eqb c) s.

(** strings.LastIndex for one byte. *)
Fixpoint last_index_of (c : Z) (s : bytes) : option nat :=
  match s with
  | [] => None
  | x :: t => match last_index_of c t with
              | Some n => Some (S n)
              | None => if x =? c then Some O else None
              end
  end.

Fixpoint has_prefix (p s : bytes) : bool :=
  match p, s with
  | [], _ => true
  | x :: p', y :: s' => (x =? y) && has_prefix p' s'
  | _ :: _, [] => false
  end.

(** strings.HasSuffix for one byte. *)
Definition ends_with (c : Z) (s : bytes) : bool :=
  match rev s with x :: _ => x =? c | [] => false end.

(** strings.ReplaceAll(s, old, "").  With an empty [old] Go inserts the (empty)
    replacement between characters, so nothing changes. *)
Fixpoint remove_go (old : bytes) (skip : nat) (s : bytes) : bytes :=
  match s with
  | [] => []
  | c :: t =>
      match skip with
      | S k => remove_go old k t
      | O => if has_prefix old s then remove_go old (List.length old - 1) t
             else c :: remove_go old O t
      end
  end.
Definition remove_all (old s : bytes) : bytes :=
  match old with [] => s | _ => remove_go old O s end.

Definition is_digit (c : Z) : bool := (48 <=? c) && (c <=? 57).

(** Value of a string of decimal digits. *)
Definition horner (l : bytes) : Z := fold_left (fun a c => 10 * a + (c - 48)) l 0.

Definition int_min : Z := - 2 ^ 63.
Definition int_max : Z := 2 ^ 63 - 1.

(** The digits a string begins with. *)
Fixpoint leading_digits (s : bytes) : bytes :=
  match s with c :: r => if is_digit c then c :: leading_digits r else [] | [] => [] end.

(** strconv.Atoi: the value it returns and whether err is nil.  On a syntax
    error the value is 0, on a range error it is the nearest int64.  A number that
    does not fit 64 bits is a range error whatever follows it. *)
Definition atoi (s : bytes) : Z * bool :=
  let '(neg, d) :=
    match s with
    | 45 :: r => (true, r)
    | 43 :: r => (false, r)
    | _ => (false, s)
    end in
  match d with
  | [] => (0, false)
  | _ =>
      if forallb is_digit d then
        let v := if neg then - horner d else horner d in
        if v <? int_min then (int_min, false)
        else if int_max <? v then (int_max, false)
        else (v, true)
      else (if 2 ^ 64 <=? horner (leading_digits d) then if neg then int_min else int_max else 0, false)
  end.

(** fmt's %d of a non-negative integer. *)
Fixpoint dec_fuel (k : nat) (z : Z) : bytes :=
  match k with
  | O => []
  | S k' => if z <? 10 then [48 + z] else dec_fuel k' (z / 10) ++ [48 + z mod 10]
  end.
Definition dec (z : Z) : bytes := dec_fuel (S (Z.to_nat (Z.log2 z))) z.

(** * Lemmas *)

Lemma len_nil {A} : len (@nil A) = 0. Proof. reflexivity. Qed.
Lemma len_cons {A} (x : A) l : len (x :: l) = 1 + len l.
Proof. unfold len. cbn [List.length]. lia. Qed.
Lemma len_app {A} (a b : list A) : len (a ++ b) = len a + len b.
Proof. unfold len. rewrite app_length. lia. Qed.
Lemma len_nonneg {A} (l : list A) : 0 <= len l.
Proof. unfold len. lia. Qed.
Lemma len_rev {A} (l : list A) : len (rev l) = len l.
Proof. unfold len. now rewrite rev_length. Qed.
Lemma len_map {A B} (f : A -> B) l : len (map f l) = len l.
Proof. unfold len. now rewrite map_length. Qed.
Lemma len_repeat {A} (x : A) n : len (repeat x n) = Z.of_nat n.
Proof. unfold len. now rewrite repeat_length. Qed.

Lemma bseq_spec a b : bseq a b = true <-> a = b.
Proof.
  revert b; induction a as [|x a IH]; intros [|y b]; cbn; split; intro H;
    try reflexivity; try discriminate.
  - apply andb_true_iff in H as [H1 H2]. apply Z.eqb_eq in H1. apply IH in H2. congruence.
  - injection H as -> ->. rewrite Z.eqb_refl. cbn. now apply IH.
Qed.
Lemma bseq_refl a : bseq a a = true. Proof. now apply bseq_spec. Qed.

Lemma pow256 (n : nat) : 2 ^ (8 * Z.of_nat n) = 256 ^ Z.of_nat n.
Proof. rewrite Z.pow_mul_r by lia. reflexivity. Qed.

Lemma le_length n z : List.length (le n z) = n.
Proof. revert z; induction n; intros; cbn; auto. Qed.
Lemma le_len n z : len (le n z) = Z.of_nat n.
Proof. unfold len. now rewrite le_length. Qed.

Lemma le_ok n z : bytes_ok (le n z).
Proof.
  revert z; induction n; intro z; cbn; constructor; [|apply IHn].
  unfold byte_ok. apply Z.mod_pos_bound. lia.
Qed.

Lemma unle_le256 n z : unle (le n z) = z mod 256 ^ Z.of_nat n.
Proof.
  revert z; induction n as [|n IH]; intro z.
  - cbn. now rewrite Z.mod_1_r.
  - cbn [le unle]. rewrite IH.
    replace (Z.of_nat (S n)) with (1 + Z.of_nat n) by lia.
    rewrite Z.pow_add_r, Z.pow_1_r by lia.
    rewrite Z.rem_mul_r; lia.
Qed.

Lemma unle_le n z : unle (le n z) = z mod 2 ^ (8 * Z.of_nat n).
Proof. rewrite pow256. apply unle_le256. Qed.

Lemma unle_le_small n z : 0 <= z < 256 ^ Z.of_nat n -> unle (le n z) = z.
Proof. intro. rewrite unle_le256. now apply Z.mod_small. Qed.

Lemma unle_bound l : bytes_ok l -> 0 <= unle l < 256 ^ len l.
Proof.
  induction 1 as [|b l Hb Hl IH].
  - cbn. lia.
  - cbn [unle]. rewrite len_cons, Z.pow_add_r, Z.pow_1_r by (pose proof (len_nonneg l); lia).
    unfold byte_ok in Hb. nia.
Qed.

Lemma le_unle l : bytes_ok l -> le (List.length l) (unle l) = l.
Proof.
  induction 1 as [|b l Hb Hl IH]; [reflexivity|].
  cbn [List.length le unle]. unfold byte_ok in Hb.
  replace ((b + 256 * unle l) / 256) with (unle l) by lia.
  rewrite IH. f_equal. lia.
Qed.

Lemma le_mod n z : le n (z mod 256 ^ Z.of_nat n) = le n z.
Proof.
  rewrite <- unle_le256. rewrite <- (le_length n z) at 1. apply le_unle, le_ok.
Qed.

Lemma le_inj n a b : 0 <= a < 256 ^ Z.of_nat n -> 0 <= b < 256 ^ Z.of_nat n ->
  le n a = le n b -> a = b.
Proof.
  intros Ha Hb H. apply (f_equal unle) in H.
  rewrite !unle_le_small in H; auto.
Qed.

Lemma sgn_range bits z : 0 < bits -> - 2 ^ (bits - 1) <= sgn bits z < 2 ^ (bits - 1).
Proof.
  intro Hb. unfold sgn.
  assert (E : 2 ^ bits = 2 * 2 ^ (bits - 1)).
  { rewrite <- (Z.pow_1_r 2) at 2. rewrite <- Z.pow_add_r by lia. f_equal; lia. }
  assert (P : 0 < 2 ^ (bits - 1)) by (apply Z.pow_pos_nonneg; lia).
  pose proof (Z.mod_pos_bound z (2 ^ bits) ltac:(lia)).
  destruct (Z.ltb_spec (z mod 2 ^ bits) (2 ^ (bits - 1))); lia.
Qed.

Lemma sgn_id bits z : 0 < bits -> - 2 ^ (bits - 1) <= z < 2 ^ (bits - 1) -> sgn bits z = z.
Proof.
  intros Hb Hz. unfold sgn.
  assert (E : 2 ^ bits = 2 * 2 ^ (bits - 1)).
  { rewrite <- (Z.pow_1_r 2) at 2. rewrite <- Z.pow_add_r by lia. f_equal; lia. }
  assert (P : 0 < 2 ^ (bits - 1)) by (apply Z.pow_pos_nonneg; lia).
  destruct (Z.ltb_spec z 0).
  - assert (M : z mod 2 ^ bits = z + 2 ^ bits).
    { symmetry. apply Z.mod_unique with (q := -1); lia. }
    rewrite M. destruct (Z.ltb_spec (z + 2 ^ bits) (2 ^ (bits - 1))); lia.
  - rewrite Z.mod_small by lia.
    destruct (Z.ltb_spec z (2 ^ (bits - 1))); lia.
Qed.

Lemma sgn_mod bits z : 0 <= bits -> sgn bits (z mod 2 ^ bits) = sgn bits z.
Proof.
  intro. unfold sgn. rewrite Z.mod_mod; [reflexivity|]. apply Z.pow_nonzero; lia.
Qed.

(** Reading back. *)
Lemma rd_app n a b : List.length a = n -> rd n (a ++ b) = Ok (a, b).
Proof.
  intros <-. unfold rd.
  rewrite app_length.
  destruct (Nat.leb_spec (List.length a) (List.length a + List.length b)); [|lia].
  rewrite firstn_app, firstn_all, Nat.sub_diag, firstn_O, app_nil_r.
  rewrite skipn_app, skipn_all, Nat.sub_diag. reflexivity.
Qed.

Lemma rd_cons1 x b : rd 1 (x :: b) = Ok ([x], b).
Proof. reflexivity. Qed.

Lemma rd_ok_inv n r a b : rd n r = Ok (a, b) -> r = a ++ b /\ List.length a = n.
Proof.
  unfold rd. destruct (Nat.leb_spec n (List.length r)); intro E.
  - injection E as <- <-. split; [symmetry; apply firstn_skipn|].
    rewrite firstn_length. lia.
  - destruct r; discriminate.
Qed.

Lemma rd_no_panic n r : rd n r <> Panic.
Proof. unfold rd. destruct (n <=? _)%nat; [discriminate|]. destruct r; discriminate. Qed.
Lemma rd_no_fuel n r : rd n r <> OutOfFuel.
Proof. unfold rd. destruct (n <=? _)%nat; [discriminate|]. destruct r; discriminate. Qed.

Lemma fit_length n l : List.length (fit n l) = n.
Proof.
  unfold fit, zeros. rewrite app_length, firstn_length, repeat_length. lia.
Qed.
Lemma fit_exact n l : List.length l = n -> fit n l = l.
Proof.
  intros <-. unfold fit, zeros. rewrite firstn_all, Nat.sub_diag. cbn. apply app_nil_r.
Qed.
Lemma fit_prefix n l : (List.length l <= n)%nat -> firstn (List.length l) (fit n l) = l.
Proof.
  intro H. unfold fit. rewrite (firstn_all2 l H).
  rewrite firstn_app, firstn_all, Nat.sub_diag, firstn_O. apply app_nil_r.
Qed.

Lemma bytes_ok_app a b : bytes_ok (a ++ b) <-> bytes_ok a /\ bytes_ok b.
Proof. apply Forall_app. Qed.
Lemma bytes_ok_zeros n : bytes_ok (zeros n).
Proof. apply Forall_forall. intros x Hx. apply repeat_spec in Hx. subst. unfold byte_ok. lia. Qed.
Lemma Forall_firstn {A} (P : A -> Prop) n l : Forall P l -> Forall P (firstn n l).
Proof.
  intro H. revert n. induction H; intros [|n]; cbn; constructor; auto.
Qed.
Lemma Forall_skipn {A} (P : A -> Prop) n l : Forall P l -> Forall P (skipn n l).
Proof.
  intro H. revert n. induction H; intros [|n]; cbn; try constructor; auto.
Qed.
Lemma bytes_ok_fit n l : bytes_ok l -> bytes_ok (fit n l).
Proof.
  intro. unfold fit. apply bytes_ok_app. split; [now apply Forall_firstn|apply bytes_ok_zeros].
Qed.

(** ** Strings *)

Lemma lower_c_idem c : lower_c (lower_c c) = lower_c c.
Proof. unfold lower_c. destruct ((65 <=? c) && (c <=? 90)) eqn:E; [|now rewrite E].
  destruct ((65 <=? c + 32) && (c + 32 <=? 90)) eqn:E2; lia. Qed.
Lemma lower_idem s : lower (lower s) = lower s.
Proof. unfold lower. rewrite map_map. apply map_ext. apply lower_c_idem. Qed.
Lemma lower_app a b : lower (a ++ b) = lower a ++ lower b.
Proof. apply map_app. Qed.
Lemma lower_len s : len (lower s) = len s.
Proof. apply len_map. Qed.
Lemma lower_length s : List.length (lower s) = List.length s.
Proof. apply map_length. Qed.

Lemma split_none c s : ~ In c s -> split c s = [s].
Proof.
  induction s as [|x s IH]; intro H; [reflexivity|]. cbn.
  destruct (Z.eqb_spec x c) as [->|N]; [exfalso; apply H; now left|].
  rewrite IH; [reflexivity|]. intro; apply H; now right.
Qed.

Lemma split_app_sep c a s : ~ In c a -> split c (a ++ c :: s) = a :: split c s.
Proof.
  induction a as [|x a IH]; intro H; cbn.
  - now rewrite Z.eqb_refl.
  - destruct (Z.eqb_spec x c) as [->|N]; [exfalso; apply H; now left|].
    rewrite IH; [reflexivity|]. intro; apply H; now right.
Qed.

Lemma split_join c parts : parts <> [] -> Forall (fun p => ~ In c p) parts ->
  split c (join c parts) = parts.
Proof.
  intros Hne H. induction H as [|p parts Hp H IH]; [congruence|].
  destruct parts as [|q parts]; [cbn; now apply split_none|].
  change (join c (p :: q :: parts)) with (p ++ c :: join c (q :: parts)).
  rewrite split_app_sep by exact Hp. rewrite IH; congruence.
Qed.

Lemma split_no_sep c s : Forall (fun p => ~ In c p) (split c s).
Proof.
  induction s as [|x s IH]; cbn; [constructor; [intros []|constructor]|].
  destruct (Z.eqb_spec x c); [constructor; [intros []|exact IH]|].
  destruct (split c s) as [|h r]; [constructor; [|constructor]|].
  - intros [E|[]]; congruence.
  - inversion IH; subst. constructor; [|assumption]. intros [E|E]; [congruence|tauto].
Qed.

Lemma split_nonempty c s : split c s <> [].
Proof.
  destruct s as [|x s]; cbn; [discriminate|].
  destruct (x =? c); [discriminate|]. destruct (split c s); discriminate.
Qed.

Lemma join_split c s : join c (split c s) = s.
Proof.
  induction s as [|x s IH]; [reflexivity|]. cbn [split].
  destruct (Z.eqb_spec x c) as [->|N].
  - destruct (split c s) as [|h r] eqn:E; [now destruct (split_nonempty c s)|].
    change (join c ([] :: h :: r)) with ([] ++ c :: join c (h :: r)).
    now rewrite IH.
  - destruct (split c s) as [|h r] eqn:E; [now destruct (split_nonempty c s)|].
    rewrite <- IH. destruct r; reflexivity.
Qed.

Lemma contains_In c s : contains c s = true <-> In c s.
Proof.
  unfold contains. rewrite existsb_exists. split.
  - intros (x & H & E). apply Z.eqb_eq in E. congruence.
  - intro H. exists c. split; [exact H|apply Z.eqb_refl].
Qed.
Lemma contains_not_In c s : contains c s = false <-> ~ In c s.
Proof. rewrite <- contains_In. destruct (contains c s); split; congruence. Qed.

Lemma index_of_app c a s : ~ In c a -> index_of c (a ++ c :: s) = Some (List.length a).
Proof.
  induction a as [|x a IH]; intro H; cbn.
  - now rewrite Z.eqb_refl.
  - destruct (Z.eqb_spec x c) as [->|N]; [exfalso; apply H; now left|].
    rewrite IH; [reflexivity|]. intro; apply H; now right.
Qed.
Lemma index_of_none c s : ~ In c s -> index_of c s = None.
Proof.
  induction s as [|x s IH]; intro H; [reflexivity|]; cbn.
  destruct (Z.eqb_spec x c) as [->|N]; [exfalso; apply H; now left|].
  rewrite IH; [reflexivity|]. intro; apply H; now right.
Qed.
Lemma index_of_some c s n : index_of c s = Some n ->
  s = firstn n s ++ c :: skipn (S n) s /\ ~ In c (firstn n s) /\ (n < List.length s)%nat.
Proof.
  revert n; induction s as [|x s IH]; intros n H; [discriminate|]. cbn in H.
  destruct (Z.eqb_spec x c) as [->|N].
  - injection H as <-. cbn. repeat split; auto. lia.
  - destruct (index_of c s) as [m|]; [|discriminate]. cbn in H. injection H as <-.
    destruct (IH m eq_refl) as (E & NI & L). cbn [firstn skipn app List.length].
    split; [f_equal; exact E|]. split; [|lia].
    intros [?|?]; [congruence|tauto].
Qed.
Lemma index_of_none_inv c s : index_of c s = None -> ~ In c s.
Proof.
  intros H I. apply in_split in I as (a & b & ->).
  induction a as [|x a IH]; cbn in H.
  - rewrite Z.eqb_refl in H. discriminate.
  - destruct (x =? c); [discriminate|]. apply IH.
    destruct (index_of c (a ++ c :: b)); [discriminate|reflexivity].
Qed.
Lemma last_index_of_app c a s : ~ In c s -> last_index_of c (a ++ c :: s) = Some (List.length a).
Proof.
  intro H. assert (N : last_index_of c s = None).
  { clear -H. induction s as [|x s IH]; [reflexivity|]; cbn.
    rewrite IH by (intro; apply H; now right).
    destruct (Z.eqb_spec x c) as [->|]; [exfalso; apply H; now left|reflexivity]. }
  induction a as [|x a IH]; cbn.
  - now rewrite N, Z.eqb_refl.
  - now rewrite IH.
Qed.
Lemma last_index_of_none c s : ~ In c s -> last_index_of c s = None.
Proof.
  intro H. induction s as [|x s IH]; [reflexivity|]; cbn.
  rewrite IH by (intro; apply H; now right).
  destruct (Z.eqb_spec x c) as [->|]; [exfalso; apply H; now left|reflexivity].
Qed.
Lemma last_index_of_some c s n : last_index_of c s = Some n ->
  s = firstn n s ++ c :: skipn (S n) s /\ ~ In c (skipn (S n) s) /\ (n < List.length s)%nat.
Proof.
  revert n; induction s as [|x s IH]; intros n H; [discriminate|]. cbn in H.
  destruct (last_index_of c s) as [m|] eqn:E.
  - injection H as <-. destruct (IH m eq_refl) as (E1 & E2 & E3). cbn [firstn skipn List.length].
    split; [|split; [assumption|lia]]. cbn [app]. f_equal. exact E1.
  - destruct (Z.eqb_spec x c) as [->|N]; [|discriminate]. injection H as <-. cbn.
    split; [reflexivity|]. split; [|lia]. intro I. apply in_split in I as (a & b & ->).
    clear -E. induction a as [|y a IHa]; cbn in E.
    + destruct (last_index_of c b); [discriminate|]. rewrite Z.eqb_refl in E. discriminate.
    + destruct (last_index_of c (a ++ c :: b)); [discriminate|]. auto.
Qed.

Lemma ends_with_app c s : ends_with c (s ++ [c]) = true.
Proof. unfold ends_with. rewrite rev_app_distr. cbn. apply Z.eqb_refl. Qed.
Lemma ends_with_In c s : ends_with c s = true -> In c s.
Proof.
  unfold ends_with. destruct (rev s) as [|x r] eqn:E; [discriminate|].
  intro H. apply Z.eqb_eq in H. subst. apply in_rev. rewrite E. now left.
Qed.
Lemma ends_with_false c s : ~ In c s -> ends_with c s = false.
Proof. intro H. destruct (ends_with c s) eqn:E; [|reflexivity]. now apply ends_with_In in E. Qed.
Lemma ends_with_inv c s : ends_with c s = true -> exists a, s = a ++ [c].
Proof.
  unfold ends_with. destruct (rev s) as [|x r] eqn:E; [discriminate|].
  intro H. apply Z.eqb_eq in H. subst. exists (rev r).
  rewrite <- (rev_involutive s), E. reflexivity.
Qed.

(** ** Decimal numbers *)

Lemma horner_snoc l c : horner (l ++ [c]) = 10 * horner l + (c - 48).
Proof. unfold horner. now rewrite fold_left_app. Qed.

Lemma dec_fuel_horner k z : 0 <= z < 2 ^ Z.of_nat k -> horner (dec_fuel k z) = z.
Proof.
  revert z; induction k as [|k IH]; intros z Hz.
  - cbn in Hz. assert (z = 0) by lia. subst. reflexivity.
  - cbn [dec_fuel]. destruct (Z.ltb_spec z 10).
    + unfold horner; cbn [fold_left]. lia.
    + rewrite horner_snoc, IH; [lia|].
      replace (Z.of_nat (S k)) with (1 + Z.of_nat k) in Hz by lia.
      rewrite Z.pow_add_r, Z.pow_1_r in Hz by lia. lia.
Qed.

Lemma dec_bound z : 0 <= z -> 0 <= z < 2 ^ Z.of_nat (S (Z.to_nat (Z.log2 z))).
Proof.
  intro Hz. pose proof (Z.log2_nonneg z).
  replace (Z.of_nat (S (Z.to_nat (Z.log2 z)))) with (Z.succ (Z.log2 z)) by lia.
  split; [lia|]. destruct (Z.eq_dec z 0) as [->|]; [cbn; lia|].
  apply Z.log2_spec. lia.
Qed.

Lemma horner_dec z : 0 <= z -> horner (dec z) = z.
Proof. intro. apply dec_fuel_horner. now apply dec_bound. Qed.

Lemma dec_fuel_digits k z : 0 <= z -> Forall (fun c => 48 <= c <= 57) (dec_fuel k z).
Proof.
  revert z; induction k as [|k IH]; intros z Hz; cbn [dec_fuel]; [constructor|].
  destruct (Z.ltb_spec z 10); [constructor; [lia|constructor]|].
  apply Forall_app. split; [apply IH; lia|]. constructor; [lia|constructor].
Qed.
Lemma dec_digits z : 0 <= z -> Forall (fun c => 48 <= c <= 57) (dec z).
Proof. apply dec_fuel_digits. Qed.

Lemma dec_nonempty z : dec z <> [].
Proof.
  unfold dec. cbn [dec_fuel]. destruct (z <? 10); [discriminate|].
  intro E. apply app_eq_nil in E as [_ E]. discriminate.
Qed.

Lemma dec_inj a b : 0 <= a -> 0 <= b -> dec a = dec b -> a = b.
Proof. intros Ha Hb E. apply (f_equal horner) in E. rewrite !horner_dec in E; auto. Qed.

Lemma forallb_digits l : Forall (fun c => 48 <= c <= 57) l -> forallb is_digit l = true.
Proof.
  intro H. apply forallb_forall. intros x Hx. rewrite Forall_forall in H.
  specialize (H x Hx). unfold is_digit. lia.
Qed.

Lemma atoi_digits l : l <> [] -> Forall (fun c => 48 <= c <= 57) l -> 0 <= horner l <= int_max ->
  atoi l = (horner l, true).
Proof.
  intros Hne Hd Hr. pose proof (forallb_digits _ Hd) as F.
  unfold atoi. destruct l as [|c l]; [congruence|].
  inversion Hd as [|? ? Hc Hl]; subst.
  assert (E : match c :: l with | 45 :: r => (true, r) | 43 :: r => (false, r) | _ => (false, c :: l) end
              = (false, c :: l)).
  { destruct c as [|p|p]; try lia. do 6 (destruct p as [p|p|]; try lia; try reflexivity). }
  rewrite E, F. unfold int_min, int_max in *.
  destruct (Z.ltb_spec (horner (c :: l)) (- 2 ^ 63)); [lia|].
  destruct (Z.ltb_spec (2 ^ 63 - 1) (horner (c :: l))); [lia|]. reflexivity.
Qed.

Lemma atoi_dec z : 0 <= z <= int_max -> atoi (dec z) = (z, true).
Proof.
  intro Hz. rewrite atoi_digits.
  - now rewrite horner_dec by lia.
  - apply dec_nonempty.
  - apply dec_digits; lia.
  - rewrite horner_dec by lia. exact Hz.
Qed.

(** A string whose first byte is neither a digit nor a sign is not a number. *)
Lemma atoi_not_number c l : is_digit c = false -> c <> 43 -> c <> 45 -> snd (atoi (c :: l)) = false.
Proof.
  intros Hc H1 H2. unfold atoi.
  assert (E : match c :: l with | 45 :: r => (true, r) | 43 :: r => (false, r) | _ => (false, c :: l) end
              = (false, c :: l)).
  { destruct c as [|p|p]; try reflexivity. do 6 (destruct p as [p|p|]; try congruence; try reflexivity). }
  rewrite E. cbn [forallb]. rewrite Hc. reflexivity.
Qed.

Lemma remove_go_absent old s : old <> [] -> (forall n, has_prefix old (skipn n s) = false) ->
  remove_go old 0 s = s.
Proof.
  intros Hne. induction s as [|c s IH]; intro H; [reflexivity|].
  cbn [remove_go]. rewrite (H 0%nat : has_prefix old (c :: s) = false). f_equal.
  apply IH. intro n. apply (H (S n)).
Qed.

Lemma bytes_ok_dec z : 0 <= z -> bytes_ok (dec z).
Proof.
  intro H. eapply Forall_impl; [|apply dec_digits; exact H]. unfold byte_ok. intros; lia.
Qed.

(** ** List splitting *)
Lemma firstn_app_exact {A} (a b : list A) n : List.length a = n -> firstn n (a ++ b) = a.
Proof. intros <-. rewrite firstn_app, Nat.sub_diag, firstn_all, firstn_O. apply app_nil_r. Qed.
Lemma skipn_app_exact {A} (a b : list A) n : List.length a = n -> skipn n (a ++ b) = b.
Proof. intros <-. rewrite skipn_app, Nat.sub_diag, skipn_all. reflexivity. Qed.
Lemma skipn_skipn {A} (l : list A) : forall m n, skipn m (skipn n l) = skipn (n + m) l.
Proof.
  induction l as [|x l IH]; intros m n.
  - now rewrite !skipn_nil.
  - destruct n as [|n]; [reflexivity|]. cbn [skipn Nat.add]. apply IH.
Qed.
