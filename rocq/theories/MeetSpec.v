(** * What being connected to a server means for the server's connections *)
From Verif Require Import GoBase TableModel TableSpec ProvModel SrvModel ReqSpec.
(** (The models for the types of the server's state.) *)

(** A server's table of connections after some connections were made and closed. *)
Definition reached (m : cman) : Prop := exists os, fst (cman_run cman_init os) = m.
(** The connections made so far. *)
Definition connections (s : server) : history := cm_heap (sv_cm s).
(** No open connection has that number. *)
Definition unused (s : server) (k : ckey) : Prop := forall a, ~ live (connections s) k a.
(** Tags, attributes and routes are the same. *)
Definition same_tags (s s' : server) : Prop :=
  sv_provs s' = sv_provs s /\ sv_router s' = sv_router s /\ sv_attrs s' = sv_attrs s /\ sv_conv s' = sv_conv s.
(** The route [r] leads to provider [i]. *)
Definition routed (s : server) (r : bytes) (i : nat) : Prop :=
  resolve s (firstn 2 r) = Ok i /\ (i < length (sv_provs s))%nat /\ ProvSpec.separate (prov_at s i).
