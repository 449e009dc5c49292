(** * What listing should find *)
From Verif Require Import GoBase SegSpec ItemsSpec AttrSpec IoiModel ReadModel ListModel.
(** (The models for the records and the type [controller].) *)

(** A symbol of the controller: instance, name, type word, dimensions. *)
Record entry := Entry { e_inst : Z; e_name : bytes; e_type : Z; e_d1 : Z; e_d2 : Z; e_d3 : Z }.
Definition wire_entry (e : entry) : bytes :=
  le 4 (e_inst e) ++ le 2 (len (e_name e)) ++ e_name e ++ le 2 (e_type e) ++ le 4 (e_d1 e) ++ le 4 (e_d2 e) ++ le 4 (e_d3 e).
Definition u (bits z : Z) : Prop := 0 <= z < 2 ^ bits.
Definition entry_ok (e : entry) : Prop :=
  1 <= e_inst e /\ u 32 (e_inst e) /\ len (e_name e) < 2 ^ 16 /\ u 16 (e_type e) /\ u 32 (e_d1 e) /\ u 32 (e_d2 e) /\ u 32 (e_d3 e).
(** A table of symbols goes by increasing instance. *)
Fixpoint increasing (l : list entry) : Prop :=
  match l with
  | [] => True
  | a :: r => (forall b, In b r -> e_inst a < e_inst b) /\ increasing r
  end.

(** Which are tags: not system symbols (two underscores), not module symbols (a
    colon, unless of a program). *)
Definition starts (p s : bytes) : Prop := exists r, s = p ++ r.
Definition user_tag (n : bytes) : Prop := n <> [] /\ ~ starts (str "__") n /\ (In 58 n -> starts (str "Program") n).
(** The entry that stands for a program. *)
Definition program_entry (n : bytes) : Prop := exists r, r <> [] /\ n = str "Program:" ++ r.

(** What is to be known of a tag. *)
Definition dims (e : entry) : list Z :=
  match e_d1 e, e_d2 e, e_d3 e with
  | 0, 0, 0 => []
  | a, 0, 0 => [a]
  | a, b, 0 => [a; b]
  | a, b, c => [a; b; c]
  end.
Definition type_of (e : entry) : tag_info := TagInfo (e_type e mod 256) (e_type e / 256) (e_d1 e) (e_d2 e) (e_d3 e).
(** Structures have bit 15 of the type word set and bit 12 clear; the low twelve
    bits are the number of the template. *)
Definition is_struct (w : Z) : bool := (8 <=? w / 2 ^ 12) && ((w / 2 ^ 12) mod 2 =? 0).
Definition template_no (w : Z) : Z := if is_struct w then w mod 2 ^ 12 else 0.
(** Controller tag; tag of a program.  [T] gives the descriptors of templates. *)
Definition global_tag (T : Z -> option template) (e : entry) : bytes * listed :=
  (lower (e_name e), Listed (e_name e) (type_of e) (e_inst e) (dims e) None (if template_no (e_type e) =? 0 then None else T (template_no (e_type e)))).
Definition program_tag (p : known_program) (e : entry) : bytes * listed :=
  let full := str "program:" ++ kp_name p ++ [46] ++ e_name e in
  (lower full, Listed full (type_of e) (e_inst e) (dims e) (Some p) None).

(** ** The controller *)
(** The answer to a request for the symbols from [start] on: a page of them, and
    whether there are more.  [good] says which pages with more to come are. *)
Definition page_of (table : list entry) (start : Z) (page more : list entry) : Prop :=
  filter (fun e => start <=? e_inst e) table = page ++ more.
Definition symbols_request (otid q : Z) (prefix : bytes) (start : Z) : bytes :=
  object_request otid q 0x55 (prefix ++ class_segment 0x6B ++ instance_segment start) [3; 0; 1; 0; 2; 0; 8; 0].
Definition serves_symbols {S} (ctl : controller S) (otid : Z) (prefix : bytes) (table : list entry) (good : Z -> list entry -> Prop) : Prop :=
  forall s q start, 1 <= start < 2 ^ 32 ->
  exists eip payload s1 page more status,
    ctl s (symbols_request otid q prefix start) = (Ok (eip, payload), s1) /\
    page_of table start page more /\ reply payload 0xD5 status 0 (concat (map wire_entry page)) /\
    (status = 0 /\ more = [] \/ status = 6 /\ more <> [] /\ good start page).
(** Two entries or more; a tag after the first instance asked for. *)
Definition two (start : Z) (page : list entry) : Prop := (2 <= length page)%nat.
Definition moves (start : Z) (page : list entry) : Prop := exists e, In e page /\ user_tag (e_name e) /\ start < e_inst e.

(** The programs: instance and name, and the path to one. *)
Definition wire_program (p : known_program) : bytes := le 2 (kp_id p) ++ [0; 0] ++ le 4 (len (kp_name p)) ++ kp_name p.
Definition program_ok (p : known_program) : Prop := 1 <= kp_id p < 2 ^ 16 /\ len (kp_name p) < 2 ^ 16 /\ Forall (fun c => 32 < c) (kp_name p).
Definition program_path (p : known_program) : bytes := class_segment 0x68 ++ instance_segment (kp_id p).
Definition serves_programs {S} (ctl : controller S) (otid : Z) (progs : list known_program) : Prop :=
  forall s q, exists eip payload s1,
    ctl s (object_request otid q 0x55 (class_segment 0x68 ++ instance_segment 0) [1; 0; 28; 0]) = (Ok (eip, payload), s1) /\
    reply payload 0xD5 0 0 (concat (map wire_program progs)).
(** The same from a controller that pads the names with blanks. *)
Definition blank (c : Z) : Prop := In c [9; 10; 11; 12; 13; 32].
Definition padded (raw name : bytes) : Prop := exists l r, raw = l ++ name ++ r /\ Forall blank l /\ Forall blank r.
Definition serves_padded {S} (ctl : controller S) (otid : Z) (rows : list (bytes * known_program)) : Prop :=
  forall s q, exists eip payload s1,
    ctl s (object_request otid q 0x55 (class_segment 0x68 ++ instance_segment 0) [1; 0; 28; 0]) = (Ok (eip, payload), s1) /\
    reply payload 0xD5 0 0 (concat (map (fun '(raw, p) => wire_program {| kp_name := raw; kp_id := kp_id p |}) rows)).
(** Controllers which know no such request. *)
Definition no_programs {S} (ctl : controller S) (otid : Z) : Prop :=
  forall s q, exists eip payload s1 st d,
    ctl s (object_request otid q 0x55 (class_segment 0x68 ++ instance_segment 0) [1; 0; 28; 0]) = (Ok (eip, payload), s1) /\
    0 < st < 256 /\ reply payload 0xD5 st 0 d.

(** Templates.  The name on the wire may have a suffix that begins with a
    semicolon. *)
Definition member_info (m : bytes * (Z * Z * Z) * option template) : bytes := let '(_, (i, t, o), _) := m in le 2 i ++ le 2 t ++ le 4 o.
Definition member_name (m : bytes * (Z * Z * Z) * option template) : bytes := let '(n, _, _) := m in n.
Definition member_type (m : bytes * (Z * Z * Z) * option template) : Z := let '(_, (_, t, _), _) := m in t.
Definition member_udt (m : bytes * (Z * Z * Z) * option template) : option template := let '(_, _, d) := m in d.
Definition member_ok (m : bytes * (Z * Z * Z) * option template) : Prop :=
  let '(n, (i, t, o), _) := m in ~ In 0 n /\ u 16 i /\ u 16 t /\ u 32 o.
Definition suffix_ok (suffix : bytes) : Prop := suffix = [] \/ exists r, suffix = 59 :: r /\ ~ In 0 r.
Definition wire_attrs (words size count handle : Z) : bytes :=
  [4; 0] ++ [4; 0; 0; 0] ++ le 4 words ++ [5; 0; 0; 0] ++ le 4 size ++ [2; 0; 0; 0] ++ le 2 count ++ [1; 0; 0; 0] ++ le 2 handle.
Definition wire_definition (name suffix : bytes) (ms : list (bytes * (Z * Z * Z) * option template)) : bytes :=
  concat (map member_info ms) ++ (name ++ suffix ++ [0]) ++ concat (map (fun m => member_name m ++ [0]) ms).
(** The controller describes template [id] as [t], under the name [name] followed
    by [suffix]. *)
Definition template_request (otid q id : Z) : bytes :=
  object_request otid q 0x03 (class_segment 0x6C ++ instance_segment id) [4; 0; 4; 0; 5; 0; 2; 0; 1; 0].
Definition definition_request (otid q id words : Z) : bytes :=
  object_request otid q 0x4C (class_segment 0x6C ++ instance_segment id) (le 4 0 ++ le 2 (4 * words - 23)).
Definition serves_template {S} (ctl : controller S) (otid id : Z) (name suffix : bytes) (t : template) : Prop :=
  let '(Template i _ words size count handle ms) := t in
  i = id /\ count = len ms /\ u 16 count /\ u 16 handle /\ u 32 words /\ u 32 size /\ Forall member_ok ms /\
  ~ In 0 name /\ ~ In 59 name /\ suffix_ok suffix /\
  (forall s q, exists eip payload s1, ctl s (template_request otid q id) = (Ok (eip, payload), s1) /\
     reply payload 0x83 0 0 (wire_attrs words size count handle)) /\
  (forall s q, exists eip payload s1 rest, ctl s (definition_request otid q id words) = (Ok (eip, payload), s1) /\
     reply payload 0xCC 0 0 (wire_definition name suffix ms ++ rest)).
Definition no_template {S} (ctl : controller S) (otid id : Z) : Prop :=
  forall s q, exists eip payload s1 st ext d, ctl s (template_request otid q id) = (Ok (eip, payload), s1) /\
     reply payload 0x83 st ext d /\ len d < 30.
Definition name_of (t : template) : bytes := let '(Template _ n _ _ _ _ _) := t in n.
Definition members_of (t : template) : list (bytes * (Z * Z * Z) * option template) := let '(Template _ _ _ _ _ _ ms) := t in ms.
(** The whole family of templates, [T] as the client sees them: the name of one
    with a suffix lacks its last character (see C70). *)
Definition seen_name (name suffix : bytes) : bytes := match suffix with [] => name | _ => removelast name end.
Definition serves_templates {S} (ctl : controller S) (otid : Z) (T : Z -> option template) : Prop :=
  forall id, 1 <= id < 2 ^ 12 ->
  match T id with
  | Some t => (exists name suffix, serves_template ctl otid id name suffix t /\ name_of t = seen_name name suffix /\ (suffix <> [] -> name <> [])) /\
              forall m, In m (members_of t) -> member_udt m = (if template_no (member_type m) =? 0 then None else T (template_no (member_type m)))
  | None => no_template ctl otid id
  end.

(** ** Results *)
(** What is wanted: every tag of the controller but the entries of programs, and
    every tag of every program. *)
Definition wanted (T : Z -> option template) (table : list entry) (progs : list known_program) (tables : known_program -> list entry)
    (k : bytes) (t : listed) : Prop :=
  (exists e, In e table /\ user_tag (e_name e) /\ ~ program_entry (e_name e) /\ (k, t) = global_tag T e) \/
  (exists p e, In p progs /\ In e (tables p) /\ user_tag (e_name e) /\ (k, t) = program_tag p e).
(** No two of them differ in case only. *)
Definition distinct (P : bytes -> listed -> Prop) : Prop := forall k t1 t2, P k t1 -> P k t2 -> t1 = t2.
(** [l1] is [l] with these added: each under its key, nothing else touched, no key
    twice. *)
Definition records (P : bytes -> listed -> Prop) (l l1 : list (bytes * listed)) : Prop :=
  (forall k t, P k t -> lookup k l1 = Some t) /\
  (forall k, (forall t, ~ P k t) -> lookup k l1 = lookup k l) /\
  (NoDup (map fst l) -> NoDup (map fst l1)).
