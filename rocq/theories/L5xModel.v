(** * Project files (l5x/types.go, l5x/load_tags.go, parts of l5x/schema.go)

    What encoding/xml makes of the file is the input; texts are bytes.  A pointer
    to a section that the file does not have is [None].  Lists hold no nil
    pointers: the decoder never makes one. *)
From Verif Require Import GoBase TypesModel.
From Verif Require ListModel.

(** ** Conversions *)
(** The loop of strconv.ParseUint in base 10 for numbers up to [mx]: [None] is a
    syntax error.  Too large a number ends it there and then.  (The checks of the
    Go code on wrapping amount to n * 10 + d > mx as 64 bits hold [mx].) *)
Fixpoint parse_uint (mx n : Z) (s : bytes) : option Z :=
  match s with
  | [] => Some n
  | c :: r =>
      if is_digit c then
        let n1 := 10 * n + (c - 48) in
        if mx <? n1 then Some mx else parse_uint mx n1 r
      else None
  end.
(** strconv.ParseInt(s, 10, bits) without its error: 0 for what is not a number,
    the nearest number for one out of range.  The flag is whether err is nil. *)
Definition parse_int (bits : Z) (s : bytes) : Z * bool :=
  let '(neg, d) := match s with 45 :: r => (true, r) | 43 :: r => (false, r) | _ => (false, s) end in
  match d with
  | [] => (0, false)
  | _ =>
      match parse_uint (2 ^ bits - 1) 0 d with
      | None => (0, false)
      | Some un =>
          let cutoff := 2 ^ (bits - 1) in
          if negb neg && (cutoff <=? un) then (cutoff - 1, false)
          else if neg && (cutoff <? un) then (- cutoff, false)
          else (if neg then - un else un, true)
      end
  end.
(** strconv.ParseBool without its error. *)
Definition parse_bool (s : bytes) : bool :=
  bseq s (str "1") || bseq s (str "t") || bseq s (str "T") || bseq s (str "TRUE") || bseq s (str "true") || bseq s (str "True").

(** L5xTypeToGoType, types.go L8-46.  It never fails.  strconv.ParseFloat is the
    argument [pf], which gives the bits of a float64. *)
Definition go_value (pf : bytes -> Z) (ty s : bytes) : gval :=
  let int bits := fst (parse_int bits s) in
  if bseq ty (str "REAL") then GFloat 8 (pf s) else
  if bseq ty (str "DINT") then GInt true 4 (int 32) else
  if bseq ty (str "BOOL") || bseq ty (str "BIT") then GBool (parse_bool s) else
  if bseq ty (str "INT") then GInt true 2 (int 16) else
  if bseq ty (str "STRING") then GStr s else
  if bseq ty (str "SINT") then GInt true 1 (int 8) else
  if bseq ty (str "LINT") then GInt true 8 (int 64) else
  if bseq ty (str "BYTE") then GInt false 1 (uns 8 (int 8)) else
  if bseq ty (str "WORD") then GInt false 2 (uns 16 (int 16)) else
  if bseq ty (str "DWORD") then GInt false 4 (uns 32 (int 32)) else
  if bseq ty (str "LWORD") then GInt false 8 (uns 64 (int 64)) else
  GStr (str "Unknown type: " ++ ty).

(** strings.TrimPrefix and TrimSuffix. *)
Definition trim_prefix (p s : bytes) : bytes := if has_prefix p s then skipn (length p) s else s.
Definition trim_suffix (p s : bytes) : bytes := rev (trim_prefix (rev p) (rev s)).
(** ParseCData, schema.go L3982-3993. *)
Definition cdata (inner : bytes) : bytes :=
  let s := ListModel.trim_space inner in
  let s := trim_prefix (str "<![CDATA[") s in
  let s := trim_suffix (str "]]>") s in
  let s := trim_prefix (str "'") s in
  trim_suffix (str "'") s.

(** ** Maps, as association lists *)
Definition mget {A} (k : bytes) (m : list (bytes * A)) : option A :=
  match find (fun x => bseq (fst x) k) m with Some x => Some (snd x) | None => None end.
Definition mset {A} (m : list (bytes * A)) (k : bytes) (v : A) : list (bytes * A) :=
  (k, v) :: filter (fun x => negb (bseq (fst x) k)) m.

(** ** The file *)
(** DataValue, schema.go L3943-3950. *)
Record dvalue := DValue { dv_name : bytes; dv_type : bytes; dv_value : bytes; dv_inner : bytes }.
(** DataStructure L3974-3980, DataArray L3957-3963, DataArrayElement L3966-3971. *)
Inductive dstruct := DStruct (name ty : bytes) (values : list dvalue) (structs : list dstruct) (arrays : list darray)
with darray := DArray (name ty dims : bytes) (elements : list delement)
with delement := DElement (index value : bytes) (structure : option (list dstruct)).
Definition ds_values (s : dstruct) : list dvalue := match s with DStruct _ _ vs _ _ => vs end.
Definition da_elements (a : darray) : list delement := match a with DArray _ _ _ es => es end.
(** DataWideType L3878-3897: the parts the code looks at, and the format. *)
Record ddata := DData { dd_format : bytes; dd_value : option dvalue; dd_struct : option dstruct; dd_array : option darray }.
(** TagType L1054-1104.  A tag without data has no Data at all. *)
Record ltag := LTag { lt_name : bytes; lt_type : bytes; lt_dims : bytes; lt_descs : list bytes; lt_data : list ddata }.
(** DataTypeType L227-243 and DataTypeMemberType L252-275.  Descriptions are their inner XML. *)
Record lmember := LMember { lm_name : bytes; lm_type : bytes; lm_target : bytes; lm_bit : Z; lm_desc : option bytes }.
Record ldtype := LDType { ld_name : bytes; ld_desc : option bytes; ld_members : option (list lmember) }.
(** Rungs: number and comments; routines: name and the rungs of every RLLContent. *)
Record lrung := LRung { lr_number : bytes; lr_comments : list bytes }.
Record lroutine := LRoutine { lo_name : bytes; lo_content : list (list lrung) }.
Record lprogram := LProgram { lp_name : bytes; lp_tags : option (list ltag); lp_routines : option (list lroutine) }.
Record ltask := LTask { lk_name : bytes; lk_programs : option (list bytes) }.
(** Modules: the comments (operand and inner XML) of the input and the output tag
    of every connection; [None] for a module without connections. *)
Record lconn := LConn { lc_in : list (bytes * bytes); lc_out : list (bytes * bytes) }.
Record lmodule := LModule { lu_name : bytes; lu_conns : option (list lconn) }.
Record lfile := LFile {
  lf_types : option (list ldtype); lf_modules : option (list lmodule); lf_tags : option (list ltag);
  lf_programs : option (list lprogram); lf_tasks : option (list ltask) }.
(** l5xData.Controller.X, which panics if there is no such section. *)
Definition section {A} (o : option (list A)) : res (list A) := match o with Some l => Ok l | None => Panic end.

(** ** LoadTags, load_tags.go L9-98 *)
Inductive lval := LVal (v : gval) | LMap (m : list (bytes * lval)) | LArr (l : list lval).
Definition lmap := list (bytes * lval).

(** tag.Data[1] *)
Definition second (t : ltag) : option ddata := nth_error (lt_data t) 1.
(** L14-25. *)
Definition controller_tag (pf : bytes -> Z) (m : lmap) (t : ltag) : lmap :=
  match second t with
  | Some d => match dd_value d with Some v => mset m (lt_name t) (LVal (go_value pf (lt_type t) (dv_value v))) | None => m end
  | None => m
  end.
(** The members of a structure, L44-50. *)
Definition struct_map (pf : bytes -> Z) (s : dstruct) : lmap :=
  fold_left (fun m v => mset m (dv_name v) (LVal (go_value pf (dv_type v) (dv_value v)))) (ds_values s) [].
(** ... of one in an array, L65-78. *)
Definition element_map (pf : bytes -> Z) (s : dstruct) : lmap :=
  fold_left (fun m v => mset m (dv_name v)
    (LVal (go_value pf (dv_type v) (if bseq (dv_type v) (str "STRING") then cdata (dv_inner v) else dv_value v)))) (ds_values s) [].
(** L62-88. *)
Fixpoint array_values (pf : bytes -> Z) (ty : bytes) (es : list delement) : res (list lval) :=
  match es with
  | [] => Ok []
  | DElement _ v o :: r =>
      let* x := match o with
                | Some [] => Panic
                | Some (s :: _) => Ok (LMap (element_map pf s))
                | None => Ok (LVal (go_value pf ty v))
                end in
      let* l := array_values pf ty r in Ok (x :: l)
  end.
(** make([]any, 0, dims), L61: more than 2^48 bytes of sixteen each, or less than
    none, panics.  Running out of memory below that is left out. *)
Definition makes (dims : Z) : bool := (0 <=? dims) && (dims <=? 2 ^ 44).
(** L31-91. *)
Definition program_tag (pf : bytes -> Z) (m : lmap) (t : ltag) : res lmap :=
  match second t with
  | None => Ok m
  | Some d =>
      match dd_value d, dd_struct d, dd_array d with
      | Some v, _, _ => Ok (mset m (lt_name t) (LVal (go_value pf (lt_type t) (dv_value v))))
      | None, Some s, _ => Ok (mset m (lt_name t) (LMap (struct_map pf s)))
      | None, None, Some a =>
          let '(dims, ok) := parse_int 64 (lt_dims t) in
          if negb ok then Err EMsg else
          if negb (makes dims) then Panic else
          let* l := array_values pf (lt_type t) (da_elements a) in
          Ok (mset m (lt_name t) (LArr l))
      | None, None, None => Ok m
      end
  end.
Fixpoint program_tags (pf : bytes -> Z) (m : lmap) (ts : list ltag) : res lmap :=
  match ts with
  | [] => Ok m
  | t :: r => let* m := program_tag pf m t in program_tags pf m r
  end.
Definition prog_prefix (name : bytes) : bytes := str "program:" ++ name.
(** L27-93. *)
Fixpoint load_programs (pf : bytes -> Z) (m : lmap) (ps : list lprogram) : res lmap :=
  match ps with
  | [] => Ok m
  | p :: r =>
      let* ts := section (lp_tags p) in
      let* pm := program_tags pf [] ts in
      load_programs pf (mset m (prog_prefix (lp_name p)) (LMap pm)) r
  end.
Definition load_tags (pf : bytes -> Z) (f : lfile) : res lmap :=
  let* ts := section (lf_tags f) in
  let m := fold_left (controller_tag pf) ts [] in
  let* ps := section (lf_programs f) in
  load_programs pf m ps.

(** ** LoadRungComments, L193-225 *)
Definition task_lookup (ks : list ltask) : list (bytes * bytes) :=
  fold_left (fun m k => match lk_programs k with
                        | None => m
                        | Some ps => fold_left (fun m p => mset m p (lk_name k)) ps m
                        end) ks [].
(** "%s/%s/%s[%s]"; a program in no task has the empty text for one. *)
Definition rung_location (task program routine rung : bytes) : bytes :=
  task ++ str "/" ++ program ++ str "/" ++ routine ++ str "[" ++ rung ++ str "]".
Definition rung_comments (loc : bytes) (m : list (bytes * bytes)) (r : lrung) : list (bytes * bytes) :=
  fold_left (fun m c => match cdata c with [] => m | _ => mset m loc (cdata c) end) (lr_comments r) m.
Definition routine_comments (task prog : bytes) (m : list (bytes * bytes)) (o : lroutine) : list (bytes * bytes) :=
  fold_left (fun m rs => fold_left (fun m r => rung_comments (rung_location task prog (lo_name o) (lr_number r)) m r) rs m) (lo_content o) m.
Fixpoint programs_comments (tasks : list (bytes * bytes)) (m : list (bytes * bytes)) (ps : list lprogram) : res (list (bytes * bytes)) :=
  match ps with
  | [] => Ok m
  | p :: r =>
      let* os := section (lp_routines p) in
      let task := match mget (lp_name p) tasks with Some t => t | None => [] end in
      programs_comments tasks (fold_left (routine_comments task (lp_name p)) os m) r
  end.
Definition load_rung_comments (f : lfile) : res (list (bytes * bytes)) :=
  let* ks := section (lf_tasks f) in
  let* ps := section (lf_programs f) in
  programs_comments (task_lookup ks) [] ps.

(** ** Types and tag comments, L100-191 and L228-305 *)
Definition type_map (ts : list ldtype) : list (bytes * ldtype) := fold_left (fun m t => mset m (ld_name t) t) ts [].
Definition is_letter (c : Z) : bool := ((97 <=? c) && (c <=? 122)) || ((65 <=? c) && (c <=? 90)) || (c =? 95).
(** strings.TrimLeft with the letters and the underscore. *)
Fixpoint trim_letters (s : bytes) : bytes := match s with c :: r => if is_letter c then trim_letters r else s | [] => [] end.
(** fmt's %d *)
Definition dec_signed (z : Z) : bytes := if z <? 0 then str "-" ++ dec (- z) else dec z.
(** The name of a bit member, L265-293: [Ok None] is the continue. *)
Definition bit_name (m : lmember) : res (option bytes) :=
  let t := lm_target m in
  if (length t <? 2)%nat then Panic else
  let '(num, ok) := atoi (trim_letters (skipn (length t - 2) t)) in
  if negb ok then Ok None else
  let less := if num =? 9 then 1 else if num =? 18 then 2 else if num =? 27 then 3 else if num =? 36 then 4 else
              if num =? 45 then 5 else if num =? 54 then 6 else if num =? 63 then 7 else 0 in
  Ok (Some (lm_name m ++ str "<" ++ dec_signed (sgn 64 (lm_bit m + num - less)) ++ str ">")).
Definition opt_cdata (o : option bytes) : bytes := match o with Some b => cdata b | None => [] end.
(** L254-261. *)
Definition member_desc (mine : bytes) (m : lmember) : bytes :=
  match lm_desc m with
  | None => mine
  | Some d => match mine with [] => cdata d | _ => mine ++ str " " ++ cdata d end
  end.
(** L295-302; what is read from the map of the member's type goes to different
    keys, so the order does not matter. *)
Definition sub_comments (m : lmember) (desc : bytes) (out : list (bytes * bytes)) (subs : list (bytes * bytes)) : list (bytes * bytes) :=
  fold_left (fun out s => mset out (lm_name m ++ str "." ++ fst s) (match desc with [] => snd s | _ => desc ++ str " " ++ snd s end)) subs out.
(** The loop over the members, L252-303; [sub] is the call for a member's type. *)
Fixpoint member_comments (sub : bytes -> res (list (bytes * bytes))) (mine : bytes) (ms : list lmember) (out : list (bytes * bytes)) : res (list (bytes * bytes)) :=
  match ms with
  | [] => Ok out
  | m :: r =>
      let desc := member_desc mine m in
      let* subs := sub (lm_type m) in
      let* n := if bseq (lm_type m) (str "BIT") then bit_name m else Ok (Some (lm_name m)) in
      match n with
      | None => member_comments sub mine r out
      | Some n => member_comments sub mine r (sub_comments m desc (mset out n desc) subs)
      end
  end.
(** GetTypeComments, L238-305.  A type that is part of itself never ends. *)
Fixpoint type_comments (fuel : nat) (types : list (bytes * ldtype)) (name : bytes) : res (list (bytes * bytes)) :=
  match fuel with
  | O => OutOfFuel
  | S k =>
      match mget name types with
      | None => Ok []
      | Some dt =>
          let mine := opt_cdata (ld_desc dt) in
          let* ms := section (ld_members dt) in
          member_comments (type_comments k types) mine ms [(name, mine)]
      end
  end.
(** L106-149. *)
Definition module_comments (m : list (bytes * bytes)) (u : lmodule) : list (bytes * bytes) :=
  match lu_conns u with
  | None => m
  | Some cs =>
      let put mark m (oc : bytes * bytes) := match cdata (snd oc) with [] => m | c => mset m (lu_name u ++ mark ++ fst oc) c end in
      fold_left (fun m c => fold_left (put (str ":O")) (lc_out c) (fold_left (put (str ":I")) (lc_in c) m)) cs m
  end.
(** L151-169. *)
Definition tag_desc (t : ltag) : option bytes :=
  match lt_data t, lt_descs t with _ :: _, d :: _ => Some (cdata d) | _, _ => None end.
Definition tag_comments (t : ltag) (m subs : list (bytes * bytes)) : list (bytes * bytes) :=
  let m := match tag_desc t with Some d => mset m (lt_name t) d | None => m end in
  fold_left (fun m s => match snd s with
                        | [] => m
                        | c => mset m (lt_name t ++ str "." ++ fst s)
                                 (match tag_desc t with Some ((_ :: _) as d) => d ++ str " " ++ c | _ => c end)
                        end) subs m.
Fixpoint all_tag_comments (fuel : nat) (types : list (bytes * ldtype)) (m : list (bytes * bytes)) (ts : list ltag) : res (list (bytes * bytes)) :=
  match ts with
  | [] => Ok m
  | t :: r => let* subs := type_comments fuel types (lt_type t) in all_tag_comments fuel types (tag_comments t m subs) r
  end.
(** The comments of program tags, L171-188, are collected and dropped; the loop
    only panics if a program has no tags. *)
Fixpoint programs_looked_at (ps : list lprogram) : res unit :=
  match ps with [] => Ok tt | p :: r => let* _ := section (lp_tags p) in programs_looked_at r end.
Definition load_tag_comments (fuel : nat) (f : lfile) : res (list (bytes * bytes)) :=
  let* ds := section (lf_types f) in
  let* us := section (lf_modules f) in
  let m := fold_left module_comments us [] in
  let* ts := section (lf_tags f) in
  let* m := all_tag_comments fuel (type_map ds) m ts in
  let* ps := section (lf_programs f) in
  let* _ := programs_looked_at ps in
  Ok m.
