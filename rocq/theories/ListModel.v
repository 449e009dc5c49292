(** * Listing tags, programs and templates (listalltags.go, listsubtags.go, listallprograms.go, listmembers.go) *)
From Verif Require Import GoBase SegModel IoiModel ItemsModel ReadModel AttrModel.

(** TagInfo, listalltags.go L16-22, and what its methods say (L26-58). *)
Record tag_info := TagInfo { ti_type : Z; ti_info : Z; ti_d1 : Z; ti_d2 : Z; ti_d3 : Z }.
Definition info_word (i : tag_info) : Z := unle [ti_type i; ti_info i].
Definition predefined (i : tag_info) : bool := Z.land (info_word i) 0x0FFF <=? 0x0100.
Definition atomic (i : tag_info) : bool := Z.land (info_word i) 0x9000 =? 0.
(** Template_ID, listalltags.go L44-58 and listmembers.go L313-326. *)
Definition template_id (w : Z) : Z := if negb (Z.testbit w 15) || Z.testbit w 12 then 0 else Z.land w 0x0FFF.

(** UDTDescriptor and its members, listmembers.go L284-311: instance, name, four
    of the fields of Info (words, bytes, members, handle; the others are left
    out), members as name, (info, type, offset) and the nested descriptor. *)
Inductive template := Template (inst : Z) (name : bytes) (words size count handle : Z)
  (members : list (bytes * (Z * Z * Z) * option template)).
(** UDTDescriptor.Size, L293-303; sums are 32-bit.  [size_of] is CIPType.Size. *)
Definition template_size (size_of : Z -> Z) (t : template) : Z :=
  let '(Template _ _ _ _ _ _ ms) := t in
  fold_left (fun acc m => let '(_, (_, ty, off), _) := m in
                          let e := (off + size_of (ty mod 256)) mod 2 ^ 32 in if acc <? e then e else acc) ms 0.

(** KnownTag, client.go L208-216 (DataTableID is not set by listing). *)
Record listed := Listed { ls_name : bytes; ls_info : tag_info; ls_inst : Z; ls_order : list Z; ls_parent : option known_program; ls_udt : option template }.

(** The maps of Client which listing fills (client.go L78-84): KnownTags,
    KnownPrograms, KnownTypes, KnownTypesByID.  They are assumed non-nil, as
    NewClient makes them. *)
Record lists := Lists { l_tags : list (bytes * listed); l_progs : list (bytes * known_program); l_types : list (bytes * template); l_ids : list (Z * template) }.
Definition put {A} (k : bytes) (v : A) (m : list (bytes * A)) : list (bytes * A) := (k, v) :: filter (fun x => negb (bseq k (fst x))) m.
Fixpoint find_id (id : Z) (m : list (Z * template)) : option template :=
  match m with
  | [] => None
  | (k, t) :: r => if id =? k then Some t else find_id id r
  end.

(** ** Calls: the controller's state, the sequence number and the maps go along *)
Record lstate (S : Type) := LState { l_ctl : S; l_seq : Z; l_lists : lists }.
Arguments LState {S}. Arguments l_ctl {S}. Arguments l_seq {S}. Arguments l_lists {S}.
Definition LM (S A : Type) : Type := lstate S -> res A * lstate S.
Definition lret {S A} (a : A) : LM S A := fun w => (Ok a, w).
Definition llift {S A} (r : res A) : LM S A := fun w => (r, w).
Definition lbind {S A B} (m : LM S A) (k : A -> LM S B) : LM S B := fun w =>
  match m w with
  | (Ok a, w1) => k a w1
  | (Err e, w1) => (Err e, w1)
  | (Panic, w1) => (Panic, w1)
  | (OutOfFuel, w1) => (OutOfFuel, w1)
  end.
(** err != nil is only looked at: *)
Definition attempt {S A} (m : LM S A) : LM S (res A) := fun w =>
  match m w with
  | (Ok a, w1) => (Ok (Ok a), w1)
  | (Err e, w1) => (Ok (Err e), w1)
  | (Panic, w1) => (Panic, w1)
  | (OutOfFuel, w1) => (OutOfFuel, w1)
  end.
Definition look {S} : LM S lists := fun w => (Ok (l_lists w), w).
Definition change {S} (f : lists -> lists) : LM S unit := fun w => (Ok tt, LState (l_ctl w) (l_seq w) (f (l_lists w))).
Definition set_tag (k : bytes) (t : listed) (l : lists) : lists := Lists (put k t (l_tags l)) (l_progs l) (l_types l) (l_ids l).
Definition set_progs (p : list (bytes * known_program)) (l : lists) : lists := Lists (l_tags l) p (l_types l) (l_ids l).
Definition set_type (k : bytes) (t : template) (l : lists) : lists := Lists (l_tags l) (l_progs l) (put k t (l_types l)) (l_ids l).
Definition set_id (id : Z) (t : template) (l : lists) : lists := Lists (l_tags l) (l_progs l) (l_types l) ((id, t) :: l_ids l).
Notation "'do' x <- m ; k" := (lbind m (fun x => k)) (at level 60, x pattern, m at level 55, right associativity).

(** Sending a request and taking the data of the second item of the reply
    (listalltags.go L182-208, listsubtags.go L57-81, listmembers.go L98-124 and
    L202-228): six bytes are skipped, a reply of fewer items panics. *)
Definition send {S} (ctl : controller S) (otid service : Z) (path tail : bytes) : LM S bytes := fun w =>
  let '(r, s1) := ctl (l_ctl w) (path_request otid (l_seq w) service path tail) in
  (let* (_, payload) := r in let* it := second_item true payload in Ok (it_data it), LState s1 (l_seq w + 1) (l_lists w)).

(** ** Templates *)
Definition svc_attrlist := 0x03.
Definition template_path (id : Z) : bytes := class_bytes 0x6C ++ instance_bytes id.
(** GetTemplateInstanceAttr, L45-133: 36 bytes, of which words, bytes, members and
    handle; nothing of it is checked. *)
Definition template_attrs {S} (ctl : controller S) (otid id : Z) : LM S (Z * Z * Z * Z) :=
  let id := if id =? 0 then 1 else id in
  do d <- send ctl otid svc_attrlist (template_path id) (le 2 4 ++ le 2 4 ++ le 2 5 ++ le 2 2 ++ le 2 1);
  llift (let* (h, _) := rd 36 d in
         Ok (unle (firstn 4 (skipn 12 h)), unle (firstn 4 (skipn 20 h)), unle (firstn 2 (skipn 28 h)), unle (firstn 2 (skipn 34 h)))).
(** bytes.Buffer.ReadString(0): what was read and, when a terminator was there,
    what follows it. *)
Fixpoint read_string (r : bytes) : bytes * option bytes :=
  match r with
  | [] => ([], None)
  | 0 :: t => ([0], Some t)
  | c :: t => let '(s, o) := read_string t in (c :: s, o)
  end.
(** The first part of strings.Split(s, ";"). *)
Fixpoint before_semicolon (s : bytes) : bytes :=
  match s with
  | [] => []
  | c :: t => if c =? 59 then [] else c :: before_semicolon t
  end.
(** s[:len(s)-1] *)
Definition drop_last (s : bytes) : res bytes := match s with [] => Panic | _ => Ok (removelast s) end.
(** L247-255 *)
Definition struct_name (s : bytes) : res bytes := drop_last (if contains 59 s then before_semicolon s else s).
(** L258-278; [again] is ListMembers. *)
Fixpoint read_members {S} (again : Z -> LM S template) (n : nat) (infos r : bytes) : LM S (list (bytes * (Z * Z * Z) * option template)) :=
  match n with
  | O => lret []
  | Datatypes.S k =>
      let '(s, o) := read_string r in
      match s, o with
      | [], None => llift (Err EEof)
      | _, _ =>
        let r1 := match o with Some r1 => r1 | None => [] end in
        let ty := unle (firstn 2 (skipn 2 infos)) in
        do name <- llift (drop_last s);
        do udt <- (if template_id ty =? 0 then lret None
                   else do d <- attempt (again (template_id ty)); lret (match d with Ok t => Some t | _ => None end));
        do rest <- read_members again k (skipn 8 infos) r1;
        lret ((name, (unle (firstn 2 infos), ty, unle (firstn 4 (skipn 4 infos))), udt) :: rest)
      end
  end.
(** ListMembers, L154-282. *)
Fixpoint list_members {S} (fuel : nat) (ctl : controller S) (otid id : Z) : LM S template :=
  match fuel with
  | O => llift OutOfFuel
  | Datatypes.S k =>
      do l <- look;
      match find_id id (l_ids l) with
      | Some t => lret t
      | None =>
          do (words, size, count, handle) <- template_attrs ctl otid id;
          do d <- send ctl otid svc_read (template_path id) (le 4 0 ++ le 2 (words * 4 - 23));
          do (infos, r) <- llift (let* (_, r) := rd 6 d in rd (8 * Z.to_nat count) r);
          do (s, r1) <- llift (match read_string r with (s, Some r1) => Ok (s, r1) | (_, None) => Err EEof end);
          do name <- llift (struct_name s);
          do ms <- read_members (list_members k ctl otid) (Z.to_nat count) infos r1;
          do _ <- change (set_id id (Template id name words size count handle ms));
          lret (Template id name words size count handle ms)
      end
  end.

(** ** Tags *)
Definition svc_instances := 0x55.
(** Number of attributes, then name, type, dimensions: listalltags.go L168-177. *)
Definition tag_attrs : bytes := le 2 3 ++ le 2 1 ++ le 2 2 ++ le 2 8.
(** One entry of a page, listalltags.go L220-241, listsubtags.go L93-112. *)
Definition next_tag (d : bytes) : res (Z * bytes * tag_info * bytes) :=
  let* (h, r) := rd 6 d in
  let* (name, r) := rd (Z.to_nat (unle (skipn 4 h))) r in
  let* (f, r) := rd 14 r in
  Ok (unle (firstn 4 h), name,
      TagInfo (nth 0 f 0) (nth 1 f 0) (unle (firstn 4 (skipn 2 f))) (unle (firstn 4 (skipn 6 f))) (unle (firstn 4 (skipn 10 f))), r).
(** listalltags.go L248-262, listsubtags.go L120-134 *)
Definition array_order (i : tag_info) : list Z :=
  if negb (ti_d3 i =? 0) then [ti_d1 i; ti_d2 i; ti_d3 i]
  else if negb (ti_d2 i =? 0) then [ti_d1 i; ti_d2 i]
  else if negb (ti_d1 i =? 0) then [ti_d1 i] else [].
(** isValidTag, listalltags.go L328-346. *)
Definition is_valid (name : bytes) : bool :=
  match name with
  | [] => false
  | _ => negb (has_prefix (str "__") name) && (negb (contains 58 name) || has_prefix (str "Program") name)
  end.
(** The header of a page, listalltags.go L60-65 and L210-214: the status is two
    bytes. *)
Definition page_header (d : bytes) : res (Z * bytes) := let* (h, r) := rd 6 d in Ok (unle (skipn 4 h), r).

(** The loop of ListSubTags, listsubtags.go L91-143: the tags so far and the last
    instance seen of a valid tag. *)
Fixpoint sub_page {S} (n : nat) (p : known_program) (d : bytes) (acc : list listed) (start : Z) : LM S (list listed * Z) :=
  match d, n with
  | [], _ => lret (acc, start)
  | _, O => llift OutOfFuel
  | _, Datatypes.S k =>
      do (inst, name, info, r) <- llift (next_tag d);
      let full := str "program:" ++ kp_name p ++ [c_dot] ++ name in
      let t := Listed full info inst (array_order info) (Some p) None in
      if negb (is_valid name) then sub_page k p r acc start
      else do _ <- change (set_tag (lower full) t); sub_page k p r (acc ++ [t]) inst
  end.
(** ListSubTags, listsubtags.go L15-153.  The list of the pages that follow is
    dropped (L146). *)
Fixpoint list_sub_tags {S} (fuel : nat) (ctl : controller S) (otid : Z) (p : known_program) (start : Z) : LM S (list listed) :=
  match fuel with
  | O => llift OutOfFuel
  | Datatypes.S k =>
      let start := if start =? 0 then 1 else start in
      do d <- send ctl otid svc_instances (program_bytes p ++ class_bytes obj_symbol ++ instance_bytes start) tag_attrs;
      do (status, d) <- llift (page_header d);
      do (acc, last) <- sub_page (length d) p d [] start;
      if status =? st_partial then do _ <- list_sub_tags k ctl otid p last; lret acc else lret acc
  end.

(** strings.TrimSpace, of ASCII white space only. *)
Definition is_space (c : Z) : bool := (c =? 32) || ((9 <=? c) && (c <=? 13)).
Fixpoint trim_left (s : bytes) : bytes :=
  match s with
  | [] => []
  | c :: t => if is_space c then trim_left t else s
  end.
Definition trim_space (s : bytes) : bytes := rev (trim_left (rev (trim_left s))).
(** The loop of ListAllPrograms, listallprograms.go L34-53, over what is left of
    the item: 16-bit instance, two bytes, 32-bit length, name.  Less than a header
    is the end. *)
Fixpoint programs (n : nat) (d : bytes) (acc : list (bytes * known_program)) : res (list (bytes * known_program)) :=
  match n with
  | O => OutOfFuel
  | Datatypes.S k =>
      match rd 8 d with
      | Ok (h, r) =>
          let* (name, r) := rd (Z.to_nat (unle (skipn 4 h))) r in
          programs k r (put (trim_space name) {| kp_name := trim_space name; kp_id := unle (firstn 2 h) |} acc)
      | Err _ => Ok acc
      | Panic => Panic | OutOfFuel => OutOfFuel
      end
  end.
(** ListAllPrograms, L8-58. *)
Definition list_programs {S} (ctl : controller S) (otid : Z) : LM S unit := fun w =>
  let '(r, s1, q1) := generic ctl (l_ctl w) otid (l_seq w) svc_instances (class_bytes 0x68 ++ instance_bytes 0) (le 2 1 ++ le 2 28) in
  let w1 := LState s1 q1 (l_lists w) in
  match (let* it := r in let d := skipn (Z.to_nat (it_pos it)) (it_data it) in programs (Datatypes.S (length d)) d []) with
  | Ok ps => change (set_progs ps) w1
  | Err e => (Err e, w1)
  | Panic => (Panic, w1) | OutOfFuel => (OutOfFuel, w1)
  end.

(** The loop of ListAllTags, listalltags.go L218-314: gives the last instance
    seen.  [sub] and [members] are ListSubTags from 1 and ListMembers. *)
Fixpoint all_page {S} (sub : known_program -> LM S (list listed)) (members : Z -> LM S template) (fallback : bool)
    (n : nat) (d : bytes) (start : Z) : LM S Z :=
  match d, n with
  | [], _ => lret start
  | _, O => llift OutOfFuel
  | _, Datatypes.S k =>
      do (inst, name, info, r) <- llift (next_tag d);
      if negb (is_valid name) then all_page sub members fallback k r inst
      else if (8 <? len name) && has_prefix (str "Program:") name && negb fallback then all_page sub members fallback k r inst
      else
        do _ <- (if (8 <? len name) && has_prefix (str "Program:") name then
                   let p := {| kp_name := skipn 8 name; kp_id := 0 |} in
                   do l <- look; do _ <- change (set_progs (put (lower (kp_name p)) p (l_progs l))); do _ <- sub p; lret tt
                 else lret tt);
        let id := template_id (info_word info) in
        do udt <- (if id =? 0 then lret None
                   else do u <- attempt (members id);
                        match u with
                        | Ok t => do _ <- change (set_type (let '(Template _ nm _ _ _ _ _) := t in nm) t); lret (Some t)
                        | _ => lret None
                        end);
        do _ <- change (set_tag (lower name) (Listed name info inst (array_order info) None udt));
        all_page sub members fallback k r inst
  end.
(** L135-141: the programs in the order the map gives them out. *)
Fixpoint each_program {S} (sub : known_program -> LM S (list listed)) (ps : list known_program) : LM S unit :=
  match ps with
  | [] => lret tt
  | p :: r => do _ <- sub p; each_program sub r
  end.
(** ListAllTags, L115-324.  [order] stands for Go's choice of the order of a map. *)
Fixpoint list_all_tags {S} (fuel : nat) (order : list known_program -> list known_program) (ctl : controller S) (otid start : Z) : LM S unit :=
  match fuel with
  | O => llift OutOfFuel
  | Datatypes.S k =>
      let start := if start <? 1 then 1 else start in
      let sub p := list_sub_tags k ctl otid p 1 in
      do fallback <- (if start =? 1 then
          do r <- attempt (list_programs ctl otid);
          do fb <- match r with
                   | Ok _ => lret false
                   | Err (EStatus _) => do _ <- change (set_progs []); lret true
                   | Err e => llift (Err e)
                   | _ => llift Panic
                   end;
          do l <- look;
          do _ <- each_program sub (order (map snd (l_progs l)));
          lret fb
        else lret false);
      do d <- send ctl otid svc_instances (class_bytes obj_symbol ++ instance_bytes start) tag_attrs;
      do (status, d) <- llift (page_header d);
      do last <- all_page sub (list_members k ctl otid) fallback (length d) d start;
      if status =? st_partial then list_all_tags k order ctl otid last else lret tt
  end.

(** What newIOI looks at of the tags found. *)
Definition known_of (t : listed) : known_tag := {| kt_type := ti_type (ls_info t); kt_instance := ls_inst t; kt_parent := ls_parent t |}.
Definition listed_client (firmware : Z) (l : lists) (cache : list (bytes * ioi)) : client :=
  {| cl_firmware := firmware; cl_known := map (fun x => (fst x, known_of (snd x))) (l_tags l); cl_cache := cache |}.
