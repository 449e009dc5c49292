(** * What a keep-alive is to do *)
From Verif Require Import GoBase ConnModel KeepModel.
(** (The models for the types of events and of the client's state.) *)

(** A goroutine is running the keep-alive. *)
Definition keeps (stack : list job) : Prop := exists j, In j stack /\
  match j with
  | Keep1 | Keep2 | Keep3 | Keep4 | KeepSel | KeepWait _ | KeepTick | KeepAsk | KeepEnd => True
  | _ => False
  end.
(** No keep-alive is running or about to. *)
Definition quiet (s : kstate) : Prop := forall stack, In stack (k_threads s) -> ~ keeps stack.
(** How many are. *)
Inductive running_keeps : list (list job) -> nat -> Prop :=
| rk_nil : running_keeps [] 0
| rk_one stack r n : keeps stack -> running_keeps r n -> running_keeps (stack :: r) (S n)
| rk_other stack r n : ~ keeps stack -> running_keeps r n -> running_keeps (stack :: r) n.

(** A program that uses the client with patience: it leaves the keep-alive to
    Connect and Disconnect (no calls of KeepAlive and KeepAliveCancel of its own),
    and no Connect begins while a keep-alive of an earlier connection is still
    about. *)
Definition patient_move (s : kstate) (t : nat) (m : kmove) : Prop :=
  match m with
  | MCall j => match j with Cancel1 _ | Keep1 => False | _ => True end
  | MGo => match nth_error (k_threads s) t with Some (Connect1 :: _) => quiet s | _ => True end
  | _ => True
  end.
Inductive patient : kstate -> list (nat * kmove) -> kstate -> Prop :=
| p_nil s : patient s [] s
| p_cons s t m s1 ms s2 : patient_move s t m -> keep_move s t m = Some s1 -> patient s1 ms s2 -> patient s ((t, m) :: ms) s2.

(** The tag table is to be read again after every change of the controller's
    properties, and at no other time. [watches poll p l]: the properties were last
    seen as [p], and [l] is what is done from then on, while all goes well. *)
Inductive watches (poll : bool) : bytes -> list kact -> Prop :=
| wa_end p : watches poll p []
| wa_same p l : watches poll p l -> watches poll p (Asked (Ok p) :: l)
| wa_changed p p' l : p' <> p -> watches poll p' l ->
    watches poll p (Asked (Ok p') :: (if poll then [Relisted (Ok tt)] else []) ++ l).
(** Or goes wrong at the end: the properties cannot be had, and the connection is
    taken down; or the tags cannot be. *)
Inductive watch_ends (poll : bool) : bytes -> list kact -> Prop :=
| we_ok p l : watches poll p l -> watch_ends poll p l
| we_lost p e : watch_ends poll p [Asked (Err e); Disconnects]
| we_tags p p' r : p' <> p -> poll = true -> r <> Ok tt -> watch_ends poll p [Asked (Ok p'); Relisted r]
| we_crash p r : r = Panic \/ r = OutOfFuel -> watch_ends poll p [Asked r]
| we_same p l : watch_ends poll p l -> watch_ends poll p (Asked (Ok p) :: l)
| we_changed p p' l : p' <> p -> watch_ends poll p' l ->
    watch_ends poll p (Asked (Ok p') :: (if poll then [Relisted (Ok tt)] else []) ++ l).
