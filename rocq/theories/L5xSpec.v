(** * What a project file says, independently of how it is loaded *)
From Verif Require Import GoBase TypesModel L5xModel.

(** A decimal number as text: an optional sign and digits. *)
Definition digits (s : bytes) : Prop := s <> [] /\ Forall (fun c => 48 <= c <= 57) s.
(** The number they make, units last. *)
Fixpoint number (s : bytes) : Z :=
  match s with [] => 0 | c :: r => (c - 48) * 10 ^ len r + number r end.
Definition reads_as (s : bytes) (z : Z) : Prop :=
  exists d, digits d /\ ((s = d \/ s = str "+" ++ d) /\ z = number d \/ s = str "-" ++ d /\ z = - number d).

(** The whole-number types: name, whether signed, bytes. *)
Definition int_types : list (bytes * (bool * nat)) :=
  [(str "SINT", (true, 1%nat)); (str "INT", (true, 2%nat)); (str "DINT", (true, 4%nat)); (str "LINT", (true, 8%nat));
   (str "BYTE", (false, 1%nat)); (str "WORD", (false, 2%nat)); (str "DWORD", (false, 4%nat)); (str "LWORD", (false, 8%nat));
   (str "USINT", (false, 1%nat)); (str "UINT", (false, 2%nat)); (str "UDINT", (false, 4%nat)); (str "ULINT", (false, 8%nat))].
Definition in_range (signed : bool) (w : nat) (z : Z) : Prop :=
  if signed then - 2 ^ (8 * Z.of_nat w - 1) <= z < 2 ^ (8 * Z.of_nat w - 1) else 0 <= z < 2 ^ (8 * Z.of_nat w).

(** The text of a value of an elementary type, in decimal. *)
Inductive means (pf : bytes -> Z) : bytes -> bytes -> gval -> Prop :=
| means_int ty signed w s z : In (ty, (signed, w)) int_types -> in_range signed w z -> reads_as s z -> means pf ty s (GInt signed w z)
| means_bool b ty : ty = str "BOOL" \/ ty = str "BIT" -> means pf ty (if b : bool then str "1" else str "0") (GBool b)
| means_real s : means pf (str "REAL") s (GFloat 8 (pf s)).
(** ... of those the package knows: unsigned types up to half their range only,
    and not under their usual names. *)
Definition handled (ty : bytes) (v : gval) : Prop :=
  match v with
  | GInt false w z => In ty [str "BYTE"; str "WORD"; str "DWORD"; str "LWORD"] /\ z < 2 ^ (8 * Z.of_nat w - 1)
  | _ => True
  end.

(** What a value member of a structure says: the text of a STRING member is what
    stands between the tags. *)
Definition quoted (s : bytes) : bytes := str "<![CDATA['" ++ s ++ str "']]>".
Inductive member_means (pf : bytes -> Z) : dvalue -> gval -> Prop :=
| mm_plain d v : means pf (dv_type d) (dv_value d) v -> member_means pf d v
| mm_string d s : dv_type d = str "STRING" -> dv_inner d = quoted s -> member_means pf d (GStr s).

(** A finite map that has these bindings and no other. *)
Definition is_map {A} (m : list (bytes * A)) (want : list (bytes * A)) : Prop :=
  forall k, (forall v, In (k, v) want -> mget k m = Some v) /\ ((forall v, ~ In (k, v) want) -> mget k m = None).

(** The decorated data of a tag. *)
Definition decorated (t : ltag) : option ddata := find (fun d => bseq (dd_format d) (str "Decorated")) (lt_data t).

(** What structures, arrays and tags hold according to the file, members of
    members included. *)
Definition ds_name (s : dstruct) : bytes := match s with DStruct n _ _ _ _ => n end.
Definition da_name (a : darray) : bytes := match a with DArray n _ _ _ => n end.
Inductive struct_shows (pf : bytes -> Z) : dstruct -> lmap -> Prop :=
| ss_intro n ty vs ss rs xs ms ls m :
    Forall2 (member_means pf) vs xs -> Forall2 (struct_shows pf) ss ms -> Forall2 (array_shows pf) rs ls ->
    is_map m (combine (map dv_name vs) (map LVal xs) ++ combine (map ds_name ss) (map LMap ms) ++ combine (map da_name rs) (map LArr ls)) ->
    struct_shows pf (DStruct n ty vs ss rs) m
with array_shows (pf : bytes -> Z) : darray -> list lval -> Prop :=
| as_intro n ty dims es ls : Forall2 (element_shows pf ty) es ls -> array_shows pf (DArray n ty dims es) ls
with element_shows (pf : bytes -> Z) : bytes -> delement -> lval -> Prop :=
| es_value ty i s v : means pf ty s v -> element_shows pf ty (DElement i s None) (LVal v)
| es_struct ty i s d m : struct_shows pf d m -> element_shows pf ty (DElement i s (Some [d])) (LMap m).
Inductive shows (pf : bytes -> Z) (t : ltag) : lval -> Prop :=
| sh_value d dv v : decorated t = Some d -> dd_value d = Some dv -> means pf (lt_type t) (dv_value dv) v -> shows pf t (LVal v)
| sh_struct d s m : decorated t = Some d -> dd_value d = None -> dd_struct d = Some s -> struct_shows pf s m -> shows pf t (LMap m)
| sh_array d n dims es l : decorated t = Some d -> dd_value d = None -> dd_struct d = None ->
    dd_array d = Some (DArray n (lt_type t) dims es) -> array_shows pf (DArray n (lt_type t) dims es) l -> shows pf t (LArr l).
(** A tag's entry in a map: what it holds, or nothing if the file gives no value. *)
Definition entry (pf : bytes -> Z) (t : ltag) (o : option lval) : Prop :=
  match decorated t with Some _ => exists v, o = Some v /\ shows pf t v | None => o = None end.
(** The file as loaded: controller tags under their names, the tags of program P
    in a map under program:P, and nothing else. *)
Definition loaded (pf : bytes -> Z) (ts : list ltag) (ps : list (bytes * list ltag)) (m : lmap) : Prop :=
  (forall t, In t ts -> entry pf t (mget (lt_name t) m)) /\
  (forall p tags, In (p, tags) ps -> exists pm, mget (str "program:" ++ p) m = Some (LMap pm) /\
     (forall t, In t tags -> entry pf t (mget (lt_name t) pm)) /\
     (forall k v, mget k pm = Some v -> In k (map lt_name tags))) /\
  (forall k v, mget k m = Some v -> In k (map lt_name ts ++ map (fun x => str "program:" ++ fst x) ps)).
(** Each thing once. *)
Definition unambiguous (ts : list ltag) (ps : list (bytes * list ltag)) : Prop :=
  NoDup (map lt_name ts ++ map (fun x => str "program:" ++ fst x) ps) /\ Forall (fun x => NoDup (map lt_name (snd x))) ps.
(** The file has both sections and the programs their tags. *)
Definition has_tags (f : lfile) (ts : list ltag) (ps : list (bytes * list ltag)) : Prop :=
  lf_tags f = Some ts /\ exists programs, lf_programs f = Some programs /\
  map (fun p => (lp_name p, lp_tags p)) programs = map (fun x => (fst x, Some (snd x))) ps.

(** What LoadTags copes with.  A tag has no data, or data in another format and
    then decorated data. *)
Definition two_forms (t : ltag) (d : ddata) : Prop :=
  exists raw, lt_data t = [raw; d] /\ dd_format raw <> str "Decorated" /\ dd_format d = str "Decorated".
Definition plain_value (pf : bytes -> Z) (ty s : bytes) : Prop := exists v, means pf ty s v /\ handled ty v.
Definition plain_member (pf : bytes -> Z) (d : dvalue) : Prop := plain_value pf (dv_type d) (dv_value d).
Definition string_member (d : dvalue) : Prop := dv_type d = str "STRING" /\ exists s, dv_inner d = quoted s.
Definition flat (ok : dvalue -> Prop) (s : dstruct) : Prop :=
  match s with DStruct _ _ vs ss rs => ss = [] /\ rs = [] /\ NoDup (map dv_name vs) /\ Forall ok vs end.
Definition plain_element (pf : bytes -> Z) (ty : bytes) (e : delement) : Prop :=
  match e with
  | DElement _ s None => plain_value pf ty s
  | DElement _ _ (Some [d]) => flat (fun d => plain_member pf d \/ string_member d) d
  | _ => False
  end.
Definition simple_controller (pf : bytes -> Z) (t : ltag) : Prop :=
  lt_data t = [] \/ exists d dv, two_forms t d /\ dd_value d = Some dv /\ plain_value pf (lt_type t) (dv_value dv).
Definition simple_program (pf : bytes -> Z) (t : ltag) : Prop :=
  simple_controller pf t \/
  exists d, two_forms t d /\ dd_value d = None /\
    ((exists s, dd_struct d = Some s /\ flat (plain_member pf) s) \/
     (dd_struct d = None /\ exists n dims es z, dd_array d = Some (DArray n (lt_type t) dims es) /\
        reads_as (lt_dims t) z /\ 0 <= z <= 2 ^ 44 /\ Forall (plain_element pf (lt_type t)) es)).

(** ** Comments *)
(** The text in a CDATA section, with white space around it. *)
Definition white (s : bytes) : Prop := Forall (fun c => c = 32 \/ 9 <= c <= 13) s.
Definition says (inner c : bytes) : Prop :=
  exists a b, white a /\ white b /\ inner = a ++ str "<![CDATA[" ++ c ++ str "]]>" ++ b.
(** A text without a quote at either end. *)
Definition unquoted (c : bytes) : Prop := hd 0 c <> 39 /\ last c 0 <> 39.
(** Where a rung is. *)
Definition free_of (x : Z) (s : bytes) : Prop := ~ In x s.
Definition place (task program routine number : bytes) : bytes :=
  task ++ str "/" ++ program ++ str "/" ++ routine ++ str "[" ++ number ++ str "]".
(** The task a program runs in, if any. *)
Definition runs_in (ks : list ltask) (p task : bytes) : Prop :=
  (exists k l, In k ks /\ lk_programs k = Some l /\ In p l /\ lk_name k = task) \/
  (task = [] /\ forall k l, In k ks -> lk_programs k = Some l -> ~ In p l).
Definition scheduled (ks : list ltask) : list bytes := flat_map (fun k => match lk_programs k with Some l => l | None => [] end) ks.
(** All rungs of the ladder routines. *)
Definition rung_of (ps : list lprogram) (p : lprogram) (o : lroutine) (r : lrung) : Prop :=
  In p ps /\ (exists os, lp_routines p = Some os /\ In o os) /\ exists rs, In rs (lo_content o) /\ In r rs.
Definition rung_names (ps : list lprogram) : list (bytes * bytes * bytes) :=
  flat_map (fun p => flat_map (fun o => map (fun r => (lp_name p, lo_name o, lr_number r)) (concat (lo_content o)))
                       (match lp_routines p with Some os => os | None => [] end)) ps.

(** What is said about tags and the members of their types. *)
Definition words (a b : bytes) : bytes := match a, b with [], _ => b | _, [] => a | _, _ => a ++ str " " ++ b end.
(** A description, if there is one, is not empty. *)
Definition described (o : option bytes) (x : bytes) : Prop :=
  match o with None => x = [] | Some inner => says inner x /\ unquoted x /\ x <> [] end.
(** Bits are kept eight to a hidden byte.  In a type of bits alone every byte is
    followed by its eight bits and called after its place, so the byte numbered 9j
    has the bits from 8j on; [k] is the bit's number in the type. *)
Definition letter (c : Z) : Prop := 65 <= c <= 90 \/ 97 <= c <= 122 \/ c = 95.
Definition bit_number (m : lmember) (k : Z) : Prop :=
  exists base c j, letter c /\ 0 <= j <= 7 /\ 0 <= lm_bit m <= 7 /\ lm_target m = base ++ [c] ++ dec (9 * j) /\ base <> [] /\ k = 8 * j + lm_bit m.
(** [comment_at ds ty path c]: of the member found along [path] in type [ty] is
    said [c]: the descriptions of the types and members passed, from the outside
    in.  Members of members only if something is said about them there.  A bit has
    its number in angles after its name. *)
Inductive comment_at (ds : list ldtype) : bytes -> list bytes -> bytes -> Prop :=
| ca_member dt ms m mine own : In dt ds -> ld_members dt = Some ms -> In m ms -> lm_type m <> str "BIT" ->
    described (ld_desc dt) mine -> described (lm_desc m) own -> comment_at ds (ld_name dt) [lm_name m] (words mine own)
| ca_bit dt ms m mine own k : In dt ds -> ld_members dt = Some ms -> In m ms -> lm_type m = str "BIT" -> bit_number m k ->
    described (ld_desc dt) mine -> described (lm_desc m) own -> comment_at ds (ld_name dt) [lm_name m ++ str "<" ++ dec k ++ str ">"] (words mine own)
| ca_inside dt ms m mine own path c : In dt ds -> ld_members dt = Some ms -> In m ms -> lm_type m <> str "BIT" ->
    described (ld_desc dt) mine -> described (lm_desc m) own -> comment_at ds (lm_type m) path c -> c <> [] ->
    comment_at ds (ld_name dt) (lm_name m :: path) (words (words mine own) c).
Fixpoint dotted (path : list bytes) : bytes := match path with [] => [] | [x] => x | x :: r => x ++ str "." ++ dotted r end.
(** Types as they are in a project: each named once, its members named once and
    without dots or angles, descriptions not empty, and none part of itself. *)
Definition type_ok (dt : ldtype) : Prop :=
  (exists mine, described (ld_desc dt) mine) /\
  exists ms, ld_members dt = Some ms /\ NoDup (map lm_name ms) /\
    Forall (fun m => free_of 46 (lm_name m) /\ free_of 60 (lm_name m) /\ (exists own, described (lm_desc m) own) /\
                     (lm_type m = str "BIT" -> (2 <= length (lm_target m))%nat)) ms.
Definition below (ds : list ldtype) (rank : bytes -> nat) : Prop :=
  forall dt ms m dt', In dt ds -> ld_members dt = Some ms -> In m ms -> In dt' ds -> ld_name dt' = lm_type m -> (rank (lm_type m) < rank (ld_name dt))%nat.
Definition tag_says (t : ltag) (d : bytes) : Prop :=
  match lt_descs t with [] => d = [] | [inner] => says inner d /\ unquoted d | _ => False end.
(** Comments on the inputs and outputs of modules: key and text as in the file. *)
Definition module_notes (us : list lmodule) : list (bytes * bytes) :=
  flat_map (fun u => flat_map (fun c => map (fun oc => (lu_name u ++ str ":I" ++ fst oc, snd oc)) (lc_in c) ++ map (fun oc => (lu_name u ++ str ":O" ++ fst oc, snd oc)) (lc_out c))
                       (match lu_conns u with Some cs => cs | None => [] end)) us.
