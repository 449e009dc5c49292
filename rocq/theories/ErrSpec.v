(** * What it means to be part of an error *)
From Verif Require Import GoBase ErrModel.

Inductive part (target : Z) : error -> Prop :=
| p_plain : part target (EPlain target)
| p_wraps e : part target (EWraps target e)
| p_under id e : part target e -> part target (EWraps id e)
| p_multi m e : In (Some e) m -> part target e -> part target (EMulti m).

(** No combined error anywhere in it is empty. *)
Inductive inhabited : error -> Prop :=
| i_plain id : inhabited (EPlain id)
| i_wraps id e : inhabited e -> inhabited (EWraps id e)
| i_multi m : m <> [] -> (forall e, In (Some e) m -> inhabited e) -> inhabited (EMulti m).
