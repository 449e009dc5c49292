(** * Where the server sends I/O data (server.go L804-815) *)
From Verif Require Import GoBase.

(** net.JoinHostPort: a host with a colon goes in brackets. *)
Definition has_colon (host : bytes) : bool := existsb (Z.eqb 58) host.
Definition join_host_port (host port : bytes) : bytes :=
  if has_colon host then str "[" ++ host ++ str "]:" ++ port else host ++ str ":" ++ port.
(** TCPAddr.String of the remote end: the IP address in its usual text (IPv4 also
    when it came in as IPv6) and, after a percent sign, the zone if it has one;
    [host] is that text. *)
Definition remote_addr (host : bytes) (port : Z) : bytes := join_host_port host (dec port).
(** The address, L806-808: strings.Split at colons, the first part. *)
Definition io_addr (remote : bytes) : bytes := hd [] (split 58 remote) ++ str ":2222".
(** net.SplitHostPort, which net.Dial applies: the host and the port, at the last
    colon; brackets must be closed right before it. *)
Fixpoint at_last (c : Z) (s : bytes) : option (bytes * bytes) :=
  match s with
  | [] => None
  | x :: r =>
      match at_last c r with
      | Some (a, b) => Some (x :: a, b)
      | None => if x =? c then Some ([], r) else None
      end
  end.
Definition split_host_port (s : bytes) : res (bytes * bytes) :=
  match at_last 58 s with
  | None => Err EMsg
  | Some (h, p) =>
      match s with
      | 91 :: _ =>
          match split 93 s with
          | a :: b :: rest => if bseq (join 93 (b :: rest)) (58 :: p) && negb (existsb (Z.eqb 91) (tl a)) then Ok (tl a, p) else Err EMsg
          | _ => Err EMsg
          end
      | _ => if has_colon h || existsb (Z.eqb 91) h || existsb (Z.eqb 93) h then Err EMsg else Ok (h, p)
      end
  end.
(** Where the goroutine sends (L810-815): an error ends it before the first
    message.  (A host that is no IP address would be looked up; it always is one.) *)
Definition io_target (host : bytes) (port : Z) : res (bytes * bytes) := split_host_port (io_addr (remote_addr host port)).
