(** * Goroutines calling methods of one client with AutoConnect

    Every method starts with checkConnection (connect.go L547-559): it looks at the
    status and, if the client is not connected, calls Connect. *)
From Verif Require Import GoBase ConnModel.

(** How far the call of a goroutine has come.  [Looks]: before Connected
    (connect.go L172-176).  [Enters]: the client was not connected; before
    startConnect (L24-40).  [Dials]: in Connect behind that (L88-169).  [Works]:
    checkConnection has returned nil; before the end of the request.  [Drops],
    [Leaves]: the request failed and Disconnect is called, before and behind
    startDisconnect (sendreceive.go L86-104, disconnect.go L8-66).  [Rests]: no
    call. *)
Inductive stage := Looks | Enters | Dials | Works | Drops | Leaves | Rests.
(** The status, the goroutines and what their calls returned, last first. *)
Record gang := Gang { g_status : Z; g_stages : list stage; g_results : list (nat * bool) }.

(** Goroutine [t] goes on.  [ok]: whether network and controller do their part in
    this step.  Each step is one visit of the mutex, or the time between two.  The
    keep-alive is one more goroutine. *)
Definition stage_step (st : Z) (s : stage) (ok : bool) : Z * stage * option bool :=
  match s with
  | Rests => (st, Looks, None)
  | Looks => (st, if st =? connected then Works else Enters, None)
  | Enters => match start_connect st with Some st' => (st', Dials, None) | None => (st, Rests, Some false) end
  | Dials => if ok then (connected, Works, None) else (disconnected, Rests, Some false)
  | Works => if ok then (st, Rests, Some true) else (st, Drops, None)
  | Drops => match start_disconnect st with Some st' => (st', Leaves, None) | None => (st, Rests, Some false) end
  | Leaves => (disconnected, Rests, Some false)
  end.
Definition gang_step (g : gang) (m : nat * bool) : gang :=
  let '(t, ok) := m in
  match nth_error (g_stages g) t with
  | None => g
  | Some s =>
      let '(st, s', r) := stage_step (g_status g) s ok in
      Gang st (set_nth t s' (g_stages g)) (match r with Some b => (t, b) :: g_results g | None => g_results g end)
  end.
Definition gang_run (g : gang) (ms : list (nat * bool)) : gang := fold_left gang_step ms g.
(** A new client and [n] goroutines. *)
Definition gang0 (n : nat) : gang := Gang disconnected (repeat Rests n) [].
