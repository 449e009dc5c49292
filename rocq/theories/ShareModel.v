(** * Goroutines that share a client's tables (ioi.go L107-224, client.go L81,
    L106-107, L239-257, listalltags.go L312, listsubtags.go L138, datatable.go L96-101) *)
From Verif Require Import GoBase IoiModel ConnModel.

(** The tables of a client that its methods use from whatever goroutine they are
    called in: KnownTags, which nothing guards, and ioi_cache, which newIOI uses
    under ioi_cache_lock.  A map is used from the moment an access begins to the
    moment it ends; that its effect comes at the end is a simplification, what Go
    allows of an access that meets another is not modelled.  Requests and replies
    are ConnModel's subject: here a reply is whatever it is. *)
Inductive job :=
| Idle
| Want (p : bytes) (d : Z)               (* newIOI before ioi_cache_lock.Lock(), ioi.go L108 *)
| Firm (p : bytes) (d : Z)               (* before client.firmware(), L120 *)
| Known (p : bytes) (d : Z)              (* in client.KnownTags[tagpath], L121 *)
| Cached (p : bytes) (d : Z)             (* in client.ioi_cache[tagpath], L137 *)
| Caching (p : bytes) (d : Z) (i : ioi)  (* in client.ioi_cache[tagpath] = ioi, L222 *)
| Leave (p : bytes) (d : Z) (r : res ioi)(* before the deferred Unlock, L109 *)
| Listing (todo : list (bytes * known_tag))   (* a listing with these tags still to come *)
| Storing (k : bytes) (x : known_tag) (todo : list (bytes * known_tag))
                                         (* in client.KnownTags[..] = kt, listalltags.go L312, listsubtags.go L138 *)
| Size (k : bytes)                       (* AddTag of a buffer before datatable.go L98 *)
| Sizing (k : bytes).                    (* in buf.client.KnownTags[..], L98 *)

Record tables := Tables {
  tb_firm : Z;                           (* knownFirmware, 0 until it has been asked for *)
  tb_known : list (bytes * known_tag);
  tb_cache : list (bytes * ioi);
  tb_lock : option nat;                  (* who holds ioi_cache_lock *)
  tb_jobs : list job;
  tb_back : list (nat * (bytes * Z * res ioi)) }.   (* what newIOI returned to whom *)

Inductive smove :=
| SCall (j : job)      (* a goroutine with nothing to do calls a method *)
| SGo                  (* the next statement, or the end of the access *)
| SFirm (z : Z).       (* the controller's major revision arrives; 0 when the request failed *)

Definition starts (j : job) : bool :=
  match j with Want _ _ | Listing _ | Size _ => true | _ => false end.

Definition with_job (s : tables) (t : nat) (j : job) : tables :=
  Tables (tb_firm s) (tb_known s) (tb_cache s) (tb_lock s) (set_nth t j (tb_jobs s)) (tb_back s).
Definition with_lock (s : tables) (h : option nat) : tables :=
  Tables (tb_firm s) (tb_known s) (tb_cache s) h (tb_jobs s) (tb_back s).
Definition with_firm (s : tables) (z : Z) : tables :=
  Tables z (tb_known s) (tb_cache s) (tb_lock s) (tb_jobs s) (tb_back s).
Definition with_known (s : tables) (k : bytes) (x : known_tag) : tables :=
  Tables (tb_firm s) ((k, x) :: tb_known s) (tb_cache s) (tb_lock s) (tb_jobs s) (tb_back s).
Definition with_cached (s : tables) (k : bytes) (i : ioi) : tables :=
  Tables (tb_firm s) (tb_known s) ((k, i) :: tb_cache s) (tb_lock s) (tb_jobs s) (tb_back s).
Definition with_back (s : tables) (b : nat * (bytes * Z * res ioi)) : tables :=
  Tables (tb_firm s) (tb_known s) (tb_cache s) (tb_lock s) (tb_jobs s) (tb_back s ++ [b]).

(** ioi.go L120 *)
Definition after_firm (z : Z) (p : bytes) (d : Z) : job := if 20 <? z then Known p d else Cached p d.
(** ioi.go L122-134 *)
Definition after_known (x : option known_tag) (p : bytes) (d : Z) : job :=
  match x with
  | Some t =>
      if negb (kt_type t =? 0) && negb (d =? t_struct) && negb (d =? t_unknown) && negb (d =? t_string)
      then Leave p d (Ok {| ioi_buf := known_tag_bytes t; ioi_bit := false; ioi_bitpos := 0 |})
      else Cached p d
  | None => Cached p d
  end.
(** ioi.go L138-220 *)
Definition after_cached (x : option ioi) (p : bytes) (d : Z) : job :=
  match x with
  | Some i => Leave p d (Ok i)
  | None => match build_ioi (lower p) with Ok i => Caching p d i | r => Leave p d r end
  end.

Definition share_move (s : tables) (t : nat) (m : smove) : option tables :=
  match nth_error (tb_jobs s) t with
  | None => None
  | Some j =>
      match m, j with
      | SCall j', Idle => if starts j' then Some (with_job s t j') else None
      | SGo, Want p d => match tb_lock s with None => Some (with_lock (with_job s t (Firm p d)) (Some t)) | Some _ => None end
      | SGo, Firm p d => if tb_firm s =? 0 then None else Some (with_job s t (after_firm (tb_firm s) p d))
      | SFirm z, Firm p d =>
          if (tb_firm s =? 0) && (0 <=? z) && (z <? 256) then Some (with_firm (with_job s t (after_firm z p d)) z) else None
      | SGo, Known p d => Some (with_job s t (after_known (lookup (lower p) (tb_known s)) p d))
      | SGo, Cached p d => Some (with_job s t (after_cached (lookup (lower p) (tb_cache s)) p d))
      | SGo, Caching p d i => Some (with_cached (with_job s t (Leave p d (Ok i))) (lower p) i)
      | SGo, Leave p d r => Some (with_back (with_lock (with_job s t Idle) None) (t, (p, d, r)))
      | SGo, Listing [] => Some (with_job s t Idle)
      | SGo, Listing ((k, x) :: todo) => Some (with_job s t (Storing k x todo))
      | SGo, Storing k x todo => Some (with_known (with_job s t (Listing todo)) k x)
      | SGo, Size k => Some (with_job s t (Sizing k))
      | SGo, Sizing k => Some (with_job s t Idle)
      | _, _ => None
      end
  end.
Fixpoint share_run (s : tables) (ms : list (nat * smove)) : option tables :=
  match ms with
  | [] => Some s
  | (t, m) :: r => match share_move s t m with Some s1 => share_run s1 r | None => None end
  end.
(** A client as NewClient makes it, shared by [n] goroutines. *)
Definition share0 (n : nat) : tables := Tables 0 [] [] None (repeat Idle n) [].
