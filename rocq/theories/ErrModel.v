(** * Combined errors (errors.go) *)
From Verif Require Import GoBase.

(** A Go error value: a plain error (compared by identity), one that wraps
    another, or a multiError.  [None] is nil. *)
Inductive error :=
| EPlain (id : Z)
| EWraps (id : Z) (e : error)
| EMulti (errs : list (option error)).

(** newMultiError, errors.go L72-77. *)
Definition new_multi (e : option error) : list (option error) := match e with Some e => [Some e] | None => [] end.
(** Add, L84-86. *)
Definition multi_add (m : list (option error)) (e : option error) : list (option error) := m ++ [e].
(** Unwrap, L96-108. *)
Definition multi_unwrap (m : list (option error)) : option error :=
  match m with
  | [] => None
  | [e] => e
  | [_; e] => e
  | _ :: r => Some (EMulti r)
  end.

(** errors.Is of the Go library, for a comparable target that is not a multiError:
    compare, ask the error's own Is method, unwrap, repeat.  multiError.Is
    (errors.go L110-112) asks errors.Is of errs[0], which panics on an empty
    list.  The library loop has no bound: fuel. *)
Fixpoint errors_is (fuel : nat) (e : option error) (target : Z) : res bool :=
  match fuel with
  | O => OutOfFuel
  | S k =>
      match e with
      | None => Ok false
      | Some (EPlain id) => Ok (id =? target)
      | Some (EWraps id e) => if id =? target then Ok true else errors_is k (Some e) target
      | Some (EMulti m) =>
          match m with
          | [] => Panic
          | h :: _ =>
              let* b := errors_is k h target in
              if b then Ok true else errors_is k (multi_unwrap m) target
          end
      end
  end.

(** The error text, L88-94: ": " and the message of each, in order.  [msg] gives
    the messages; a nil prints as %!s(<nil>). *)
Definition multi_text (msg : option error -> bytes) (m : list (option error)) : bytes :=
  concat (map (fun e => [58; 32] ++ msg e) m).
