(** * Write of a structure with AutoConnect (write.go) *)
From Verif Require Import GoBase IoiModel ItemsModel ReadModel PackTypes KnownModel OpenModel SrvModel LinkModel AutoModel.

(** Write of a struct, write.go L101-108 and write_udt, L116-219, after
    checkConnection; name known. *)
Definition auto_kwrite (crc : bytes -> Z) (cl : client) (now q : Z) (tag : bytes) (k : kty) (v : gv) (a : auto) : res unit * auto :=
  match auto_check now a with
  | (Ok _, a1) =>
      let '(r, x, _) := kwrite crc (over_wire (a_session a1)) cl (a_wire a1) (s_otid (a_session a1)) q tag k v in
      (r, Auto (a_session a1) x)
  | (Err e, a1) => (Err e, a1)
  | (Panic, a1) => (Panic, a1)
  | (OutOfFuel, a1) => (OutOfFuel, a1)
  end.
