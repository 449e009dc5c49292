(** * Serving: NewServer, Serve, serveTCP and the loop of serveUDP (server.go L44-200)

    One server in one program.  What a connection's requests do is SrvModel's
    [happen], what a datagram does is IoModel's [datagram]; here are the two ports,
    the listeners, the calls of Serve and the goroutines they start.  A program
    may call Serve more than once, for instance after it failed.  Only the two
    ports and the server's fields connect the goroutines; each statement that
    reads or sets one is a step. *)
From Verif Require Import GoBase TypesModel TableModel ProvModel SrvModel.

(** Who has a port: nobody, another program, or a listener of ours, numbered in the
    order they are made. *)
Inductive owner := Nobody | Another | Ours (k : nat).

(** How far a call of Serve has come.  [Received] is the statement after
    [err = <-errCh]. *)
Inductive progress :=
| ToTcp            (* before net.Listen, L67 *)
| ToUdp            (* before net.ListenPacket, L73 *)
| ToStart          (* before the two go statements, L83 *)
| Waiting          (* in <-errCh, L99 *)
| ToCloseTcp       (* before srv.TCPListener.Close(), L102 *)
| ToCloseUdp       (* before srv.UDPListener.Close(), L106 *)
| Returned (tcp udp started : bool).   (* with an error: what of the three the call came past *)

(** serveTCP and serveUDP: at the top of the loop, or in Accept (ReadFrom) of the
    listener the field had then.  Both have no statement after the loop. *)
Inductive loop := Top | Inside (k : nat).

Record hosted := Hosted {
  ho_site : site;
  ho_tcp : owner; ho_udp : owner;             (* ports 44818 and 2222 *)
  ho_tl : option nat; ho_ul : option nat;     (* the fields TCPListener, UDPListener *)
  ho_made : nat;                              (* listeners made *)
  ho_calls : list progress;
  ho_accepts : list (nat * loop);             (* serveTCP, with the call that started it *)
  ho_reads : list (nat * loop);               (* serveUDP *)
  ho_chan : list nat;                         (* messages in errCh: the calls they are for *)
  ho_down : bool }.                           (* a panic has ended the program *)

Inductive deed :=
| Calls                        (* Serve is called *)
| Goes (c : nat)               (* call [c] executes its next statement *)
| Enters (a : nat)             (* accept loop [a] evaluates srv.TCPListener and calls Accept *)
| Arrives (a : nat) (stream : bytes)   (* its Accept returns a connection over which [stream] is to come *)
| Fails (a : nat)              (* its Accept returns an error *)
| UdpEnters (a : nat)
| UdpDone (a : nat)            (* ReadFrom returns, with whatever *)
| Closes (tcp : bool)          (* the program around closes srv.TCPListener or srv.UDPListener *)
| Takes (tcp : bool)           (* another program takes the port if it is free, *)
| Leaves (tcp : bool)          (* or gives it back *)
| Serves (e : happening).      (* a turn of a connection, or a write by the program *)

Definition is_free (o : owner) : bool := match o with Nobody => true | _ => false end.
Definition has (o : owner) (k : nat) : bool := match o with Ours j => (j =? k)%nat | _ => false end.
Definition give_up (o : owner) (k : option nat) : owner :=
  match o, k with Ours j, Some k => if (j =? k)%nat then Nobody else o | _, _ => o end.
Fixpoint upd {A} (n : nat) (x : A) (l : list A) : list A :=
  match l, n with
  | [], _ => []
  | _ :: r, O => x :: r
  | y :: r, S n => y :: upd n x r
  end.
Definition set_call (h : hosted) (c : nat) (p : progress) : hosted :=
  Hosted (ho_site h) (ho_tcp h) (ho_udp h) (ho_tl h) (ho_ul h) (ho_made h) (upd c p (ho_calls h)) (ho_accepts h) (ho_reads h) (ho_chan h) (ho_down h).
Definition crash (h : hosted) : hosted :=
  Hosted (ho_site h) (ho_tcp h) (ho_udp h) (ho_tl h) (ho_ul h) (ho_made h) (ho_calls h) (ho_accepts h) (ho_reads h) (ho_chan h) true.
(** srv.ConnMgr.Init, L64 (server_connmgr.go): an empty table. *)
Definition empty_table (s : site) : site := Site (set_cm cman_init (si_srv s)) (si_peers s) (si_down s).

(** One statement of Serve, L63-112.  A failed Listen leaves nil in the field. *)
Definition serve_step (h : hosted) (c : nat) : hosted :=
  match nth_error (ho_calls h) c with
  | Some ToTcp =>
      if is_free (ho_tcp h)
      then Hosted (ho_site h) (Ours (ho_made h)) (ho_udp h) (Some (ho_made h)) (ho_ul h) (S (ho_made h)) (upd c ToUdp (ho_calls h)) (ho_accepts h) (ho_reads h) (ho_chan h) (ho_down h)
      else Hosted (ho_site h) (ho_tcp h) (ho_udp h) None (ho_ul h) (ho_made h) (upd c (Returned false false false) (ho_calls h)) (ho_accepts h) (ho_reads h) (ho_chan h) (ho_down h)
  | Some ToUdp =>
      if is_free (ho_udp h)
      then Hosted (ho_site h) (ho_tcp h) (Ours (ho_made h)) (ho_tl h) (Some (ho_made h)) (S (ho_made h)) (upd c ToStart (ho_calls h)) (ho_accepts h) (ho_reads h) (ho_chan h) (ho_down h)
      else Hosted (ho_site h) (ho_tcp h) (ho_udp h) (ho_tl h) None (ho_made h) (upd c (Returned true false false) (ho_calls h)) (ho_accepts h) (ho_reads h) (ho_chan h) (ho_down h)
  | Some ToStart =>
      Hosted (ho_site h) (ho_tcp h) (ho_udp h) (ho_tl h) (ho_ul h) (ho_made h) (upd c Waiting (ho_calls h)) (ho_accepts h ++ [(c, Top)]) (ho_reads h ++ [(c, Top)]) (ho_chan h) (ho_down h)
  | Some Waiting => if existsb (Nat.eqb c) (ho_chan h) then set_call h c ToCloseTcp else h
  | Some ToCloseTcp =>
      match ho_tl h with
      | Some k => Hosted (ho_site h) (give_up (ho_tcp h) (Some k)) (ho_udp h) (ho_tl h) (ho_ul h) (ho_made h) (upd c ToCloseUdp (ho_calls h)) (ho_accepts h) (ho_reads h) (ho_chan h) (ho_down h)
      | None => crash h
      end
  | Some ToCloseUdp =>
      match ho_ul h with
      | Some k => Hosted (ho_site h) (ho_tcp h) (give_up (ho_udp h) (Some k)) (ho_tl h) (ho_ul h) (ho_made h) (upd c (Returned true true true) (ho_calls h)) (ho_accepts h) (ho_reads h) (ho_chan h) (ho_down h)
      | None => crash h
      end
  | _ => h
  end.

Definition set_accept (h : hosted) (a : nat) (x : nat * loop) (s : site) : hosted :=
  Hosted s (ho_tcp h) (ho_udp h) (ho_tl h) (ho_ul h) (ho_made h) (ho_calls h) (upd a x (ho_accepts h)) (ho_reads h) (ho_chan h) (ho_down h).
Definition set_read (h : hosted) (a : nat) (x : nat * loop) : hosted :=
  Hosted (ho_site h) (ho_tcp h) (ho_udp h) (ho_tl h) (ho_ul h) (ho_made h) (ho_calls h) (ho_accepts h) (upd a x (ho_reads h)) (ho_chan h) (ho_down h).
Definition set_ports (h : hosted) (t u : owner) : hosted :=
  Hosted (ho_site h) t u (ho_tl h) (ho_ul h) (ho_made h) (ho_calls h) (ho_accepts h) (ho_reads h) (ho_chan h) (ho_down h).
(** A new handler, L124, with its goroutine, L125-130. *)
Definition add_peer (s : site) (stream : bytes) : site := Site (si_srv s) (si_peers s ++ [Peer handler_new stream [] true]) (si_down s).
Definition other (o : owner) (taking : bool) : owner :=
  match o, taking with Nobody, true => Another | Another, false => Nobody | _, _ => o end.

(** Accept of a listener that is closed fails (the net package); of an open one it
    may fail too. *)
Definition host_step (h : hosted) (d : deed) : hosted :=
  if ho_down h || si_down (ho_site h) then h else
  match d with
  | Calls => Hosted (empty_table (ho_site h)) (ho_tcp h) (ho_udp h) (ho_tl h) (ho_ul h) (ho_made h) (ho_calls h ++ [ToTcp]) (ho_accepts h) (ho_reads h) (ho_chan h) (ho_down h)
  | Goes c => serve_step h c
  | Enters a =>
      match nth_error (ho_accepts h) a with
      | Some (c, Top) => match ho_tl h with Some k => set_accept h a (c, Inside k) (ho_site h) | None => crash h end
      | _ => h
      end
  | Arrives a stream =>
      match nth_error (ho_accepts h) a with
      | Some (c, Inside k) => if has (ho_tcp h) k then set_accept h a (c, Top) (add_peer (ho_site h) stream) else h
      | _ => h
      end
  | Fails a =>
      match nth_error (ho_accepts h) a with
      | Some (c, Inside k) => set_accept h a (c, Top) (ho_site h)
      | _ => h
      end
  | UdpEnters a =>
      match nth_error (ho_reads h) a with
      | Some (c, Top) => match ho_ul h with Some k => set_read h a (c, Inside k) | None => crash h end
      | _ => h
      end
  | UdpDone a =>
      match nth_error (ho_reads h) a with
      | Some (c, Inside k) => set_read h a (c, Top)
      | _ => h
      end
  | Closes true => set_ports h (give_up (ho_tcp h) (ho_tl h)) (ho_udp h)
  | Closes false => set_ports h (ho_tcp h) (give_up (ho_udp h) (ho_ul h))
  | Takes true => set_ports h (other (ho_tcp h) true) (ho_udp h)
  | Takes false => set_ports h (ho_tcp h) (other (ho_udp h) true)
  | Leaves true => set_ports h (other (ho_tcp h) false) (ho_udp h)
  | Leaves false => set_ports h (ho_tcp h) (other (ho_udp h) false)
  | Serves e => Hosted (happen (ho_site h) e) (ho_tcp h) (ho_udp h) (ho_tl h) (ho_ul h) (ho_made h) (ho_calls h) (ho_accepts h) (ho_reads h) (ho_chan h) (ho_down h)
  end.
Definition host_run (h : hosted) (ds : list deed) : hosted := fold_left host_step ds h.
(** Closing through a nil field would panic; a program that does so is not
    considered ([Closes] then does nothing). *)

(** A program that has made a server and not called Serve. *)
Definition unserved (s : server) (tcp udp : owner) : hosted := Hosted (Site s [] false) tcp udp None None 0 [] [] [] [] false.
(** The Attributes NewServer gives it, L50-57; [serial] is random. *)
Definition new_attrs (serial : Z) : list (Z * gval) :=
  [(1, GInt true 2 0x1776); (2, GInt true 2 0x000E); (3, GInt true 2 1); (4, GInt true 2 0x1412); (5, GInt true 2 0x3060); (6, GInt false 4 serial); (7, GStr (str "Gologix"))].
