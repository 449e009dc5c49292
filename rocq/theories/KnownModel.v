(** * Structs with members of the lgxtypes structures (pack.go, lgxtypes) *)
From Verif Require Import GoBase TypesModel IoiModel ItemsModel ReadModel PackTypes PackModel LgxModel StructModel WriteModel.

(** Struct types whose members, at any depth, may be lgxtypes.TIMER, COUNTER,
    CONTROL and STRING.  [KPlain] is a type without them. *)
Inductive kty :=
| KPlain (t : gty)
| KTimer | KCounter | KControl | KString
| KArr (n : nat) (k : kty)
| KStruct (name : bytes) (fs : kfields)
with kfields :=
| KNil
| KCons (nopack : bool) (k : kty) (rest : kfields).

Scheme kty_ind2 := Induction for kty Sort Prop with kfields_ind2 := Induction for kfields Sort Prop.
Combined Scheme kty_mut from kty_ind2, kfields_ind2.

(** What reflection sees: timer.go L8-23, counter.go L8-16, control.go L8-19,
    string.go L3-6. *)
Definition dint := TInt true 4.
Fixpoint flag_fields (n : nat) : gfields := match n with O => FNil | S k => FCons false TBool (flag_fields k) end.
Definition two_dints (flags : nat) : gfields := FCons false dint (FCons false dint (flag_fields flags)).
Fixpoint under (k : kty) : gty :=
  match k with
  | KPlain t => t
  | KTimer => TStruct (str "TIMER") (two_dints 7)
  | KCounter => TStruct (str "COUNTER") (two_dints 5)
  | KControl => TStruct (str "CONTROL") (two_dints 8)
  | KString => TStruct (str "STRING") (FCons false dint (FCons false (TArr 82 (TInt true 1)) FNil))
  | KArr n k => TArr n (under k)
  | KStruct name fs => TStruct name (under_fields fs)
  end
with under_fields (fs : kfields) : gfields :=
  match fs with KNil => FNil | KCons np k r => FCons np (under k) (under_fields r) end.

(** The structures as values. *)
Definition vtimer (t : timer) : gv :=
  VStruct [VInt (tm_pre t); VInt (tm_acc t); VBool (tm_en t); VBool (tm_tt t); VBool (tm_dn t);
           VBool (tm_fs t); VBool (tm_ls t); VBool (tm_ov t); VBool (tm_er t)].
Definition vcounter (t : counter) : gv :=
  VStruct [VInt (ct_pre t); VInt (ct_acc t); VBool (ct_cu t); VBool (ct_cd t); VBool (ct_dn t); VBool (ct_ov t); VBool (ct_un t)].
Definition vcontrol (t : control) : gv :=
  VStruct [VInt (cl_len t); VInt (cl_pos t); VBool (cl_en t); VBool (cl_eu t); VBool (cl_dn t); VBool (cl_em t);
           VBool (cl_er t); VBool (cl_ul t); VBool (cl_in t); VBool (cl_fd t)].
(** (Values of another form do not occur.) *)
Definition timer_of (v : gv) : timer :=
  match v with
  | VStruct [VInt p; VInt a; VBool en; VBool tm; VBool dn; VBool fs; VBool ls; VBool ov; VBool er] => Timer p a en tm dn fs ls ov er
  | _ => Timer 0 0 false false false false false false false
  end.
Definition counter_of (v : gv) : counter :=
  match v with
  | VStruct [VInt p; VInt a; VBool cu; VBool cd; VBool dn; VBool ov; VBool un] => Counter p a cu cd dn ov un
  | _ => Counter 0 0 false false false false false
  end.
Definition control_of (v : gv) : control :=
  match v with
  | VStruct [VInt l; VInt p; VBool en; VBool eu; VBool dn; VBool em; VBool er; VBool ul; VBool i; VBool fd] => Control l p en eu dn em er ul i fd
  | _ => Control 0 0 false false false false false false false false
  end.

(** Pack, pack.go L96-237, with the types that have a Pack method (L99-101).
    STRING has none.  An array of structs goes to binary.Write (L212), which
    knows no Pack methods. *)
Fixpoint kpack (k : kty) (v : gv) : bytes * Z :=
  match k with
  | KTimer => timer_pack (timer_of v)
  | KCounter => counter_pack (counter_of v)
  | KControl => control_pack (control_of v)
  | KStruct _ fs => match v with VStruct vs => kpack_fields fs vs 0 0 0 | _ => ([], 0) end
  | _ => pack (under k) v
  end
with kpack_fields (fs : kfields) (vs : list gv) (pos : Z) (bp : nat) (acc : Z) : bytes * Z :=
  match fs, vs with
  | KCons np k r, v :: vr =>
      if bit_field np (under k) then
        let '(o, pos1, bp1, acc1) :=
          match v with
          | VArr l => pack_bits l pos bp acc
          | _ => pack_bits [v] pos bp acc
          end in
        let '(o2, n) := kpack_fields r vr pos1 bp1 acc1 in (o ++ o2, n)
      else
        let '(flush, pos1) := if (0 <? bp)%nat then ([acc], pos + 1) else ([], pos) in
        let pad := pad_len pos1 (cip_align (under k)) in
        let pos2 := pos1 + Z.of_nat pad in
        let '(body, s) :=
          match under k with
          | TStruct _ _ => kpack k v
          | _ => (raw_write (under k) v, go_size (under k))
          end in
        let '(o2, n) := kpack_fields r vr (pos2 + s) 0 0 in
        (flush ++ zeros pad ++ body ++ o2, n)
  | _, _ => if (0 <? bp)%nat then ([acc], pos + 1) else ([], pos)
  end.

(** An Unpack method's outcome as a value. *)
Definition method {A} (mk : A -> gv) (x : A * Z * res unit * bytes) : res (gv * Z * bytes) :=
  match x with
  | (t, n, Ok _, rest) => Ok (mk t, n, rest)
  | (_, _, Err e, _) => Err e
  | (_, _, Panic, _) => Panic
  | (_, _, OutOfFuel, _) => OutOfFuel
  end.
(** Unpack, L241-387, into a struct holding [old]; only TIMER leaves some of it. *)
Fixpoint kunpack (k : kty) (old : gv) (r : bytes) : res (gv * Z * bytes) :=
  match k with
  | KTimer => method vtimer (timer_unpack (timer_of old) r)
  | KCounter => method vcounter (counter_unpack (counter_of old) r)
  | KControl => method vcontrol (control_unpack (control_of old) r)
  | KStruct _ fs =>
      let* (x, rest) := kunpack_fields fs (match old with VStruct l => l | _ => [] end) r 0 0 0 in Ok (VStruct (fst x), snd x, rest)
  | _ => unpack (under k) r
  end
with kunpack_fields (fs : kfields) (olds : list gv) (r : bytes) (cnt : Z) (bp : nat) (acc : Z) : res ((list gv * Z) * bytes) :=
  match fs with
  | KNil => Ok (([], cnt), r)
  | KCons np k rest =>
      let t := under k in
      if bit_field np t then
        let* (x, acc1) := unpack_bits (match t with TArr n _ => n | _ => 1%nat end) r cnt bp acc in
        let '(l, r1, cnt1, bp1) := x in
        let v := match t with TArr _ _ => VArr l | _ => hd (VBool false) l end in
        let* (y, r2) := kunpack_fields rest (tl olds) r1 cnt1 bp1 acc1 in
        Ok ((v :: fst y, snd y), r2)
      else
        let pad := pad_len cnt (cip_align t) in
        let* r1 := read_some pad r in
        let cnt1 := cnt + Z.of_nat pad in
        let* (x, r2) :=
          match t with
          | TStruct _ _ => let* (y, r2) := kunpack k (hd (VBool false) olds) r1 in Ok (y, r2)
          | _ => let* (v, r2) := raw_read t r1 in Ok ((v, go_size t), r2)
          end in
        let* (y, r3) := kunpack_fields rest (tl olds) r2 (cnt1 + snd x) 0 acc in
        Ok ((fst x :: fst y, snd y), r3)
  end.

(** The TypeAbbr methods: timer.go L80-82, counter.go L80-82, control.go L95-97,
    string.go L8-10. *)
Definition type_abbr (k : kty) : option (bytes * Z) :=
  match k with
  | KTimer => Some (str "TIMER,DINT,DINT,DINT", 0x0F83)
  | KCounter => Some (str "COUNTER,DINT,DINT,DINT", 0x0F82)
  | KControl => Some (str "CONTROL,DINT,DINT,DINT", 0x0F81)
  | KString => Some (str "STRING,DINT,SINT[82]", 0x0FCE)
  | _ => None
  end.
(** TypeEncode, pack.go L416-488: the text... *)
Fixpoint kencode (k : kty) : res bytes :=
  match k with
  | KTimer | KCounter | KControl | KString => match type_abbr k with Some (s, _) => Ok s | None => Panic end
  | KStruct name fs => let* s := kencode_fields fs 0 in Ok (name ++ s)
  | KPlain t => type_encode t
  | KArr _ _ => Panic
  end
with kencode_fields (fs : kfields) (bp : nat) : res bytes :=
  match fs with
  | KNil => Ok []
  | KCons _ k r =>
      match under k with
      | TArr n e =>
          let* at_ := (match e with
                       | TStruct _ _ => if (n =? 0)%nat then Panic else
                                        match k with KArr _ k1 => kencode k1 | _ => type_encode e end
                       | _ => Ok (type_name e) end) in
          let* s := kencode_fields r bp in
          Ok (str "," ++ at_ ++ str "[" ++ dec (Z.of_nat n) ++ str "]" ++ s)
      | TBool =>
          let* s := kencode_fields r (if (8 <=? S bp)%nat then 0%nat else S bp) in
          Ok ((if (bp =? 0)%nat then str ",SINT" else []) ++ s)
      | TStruct _ _ =>
          let* x := kencode k in
          let* s := kencode_fields r 0 in Ok (str "," ++ x ++ s)
      | _ => let* s := kencode_fields r 0 in Ok (str "," ++ type_name (under k) ++ s)
      end
  end.
(** ... and the number that goes with it (L420-424, L485). *)
Definition type_id (crc : bytes -> Z) (k : kty) : res (bytes * Z) :=
  match type_abbr k with
  | Some p => Ok p
  | None => let* s := kencode k in Ok (s, crc s)
  end.

(** write_udt, write.go L116-218. *)
Definition kwrite {S} (crc : bytes -> Z) (ctl : controller S) (c : client) (s : S) (otid q : Z)
    (tag : bytes) (k : kty) (v : gv) : res unit * S * Z :=
  match fst (new_ioi c tag T_struct) with
  | Ok i =>
      match type_id crc k with
      | Ok (_, h) =>
          let req := path_request otid q svc_write (ioi_buf i)
                       ([T_struct; 2] ++ le 2 h ++ le 2 1 ++ fst (kpack k v)) in
          let '(r, s1) := exchange ctl s req write_reply in (r, s1, q + 1)
      | Err e => (Err e, s, q + 1)
      | Panic => (Panic, s, q + 1)
      | OutOfFuel => (OutOfFuel, s, q + 1)
      end
  | Err e => (Err e, s, q)
  | Panic => (Panic, s, q)
  | OutOfFuel => (OutOfFuel, s, q)
  end.

(** Client.Read with a pointer to such a struct, read.go L294-347 (as StructModel.read_to). *)
Definition kread {S} (fuel : nat) (ctl : controller S) (c : client) (s : S) (otid q : Z)
    (tag : bytes) (k : kty) (old : gv) : res gv * S * Z :=
  let '(r, s1, q1) := read_single fuel ctl c s otid q tag T_struct 1 in
  ((let* b := as_bytes r in let* (x, _) := kunpack k old b in Ok (fst x)), s1, q1).
