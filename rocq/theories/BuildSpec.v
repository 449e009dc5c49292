(** * Tags addressed with the path builder *)
From Verif Require Import GoBase IoiSpec PathModel.
(** (PathModel for the names of the builder's calls.) *)

(** The builder's calls for a tag, as its documentation says (path.go L196-198,
    L213): a symbol for each level, an element for each subscript. *)
Definition by_levels (t : tag) : list pb_call :=
  flat_map (fun m => PbSymbolic (m_name m) :: map PbElement (m_subs m)) (t_members t).
(** The request path that names a tag in the user's own spelling. *)
Definition spelling (t : tag) : bytes :=
  concat (map (fun m => symbol_segment (m_name m) ++ concat (map element_segment (m_subs m))) (t_members t)).
