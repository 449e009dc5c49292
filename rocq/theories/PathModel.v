(** * Route strings and the path builder (path.go) *)
From Verif Require Import GoBase SegModel IoiModel.

(** strings.ReplaceAll(path, c, "") for one character (path.go L66-68). *)
Definition strip_c (c : Z) (s : bytes) : bytes := filter (fun x => negb (x =? c)) s.
Definition strip (s : bytes) : bytes := strip_c 93 (strip_c 91 (strip_c 32 s)).

(** path.go L82: set bit 4 of the last byte; an empty path is indexed at -1. *)
Definition set_ext (acc : bytes) : res bytes :=
  match rev acc with
  | [] => Panic
  | b :: r => Ok (rev r ++ [Z.lor b 16])
  end.

(** path.go L74-98: one comma separated part. *)
Definition path_part (acc : bytes) (part : bytes) : res bytes :=
  if contains 46 part then
    let* acc' := set_ext acc in
    Ok (acc' ++ [len part mod 256] ++ part)
  else
    let '(v, ok) := atoi part in
    if negb ok then Err EMsg
    else if (v <? 0) || (255 <? v) then Err EMsg
    else Ok (acc ++ [v]).

Fixpoint path_parts (acc : bytes) (parts : list bytes) : res bytes :=
  match parts with
  | [] => Ok acc
  | p :: r => let* acc' := path_part acc p in path_parts acc' r
  end.

(** ParsePath, path.go L61-101. *)
Definition parse_path (s : bytes) : res bytes :=
  match s with
  | [] => Ok []
  | _ => path_parts [] (split 44 (strip s))
  end.

(** ** PathBuilder (path.go L114-282) *)

Inductive pb_call :=
| PbCustom (data : bytes)         (* L131-141 *)
| PbClass (n : Z)                 (* L154-163 *)
| PbInstance (n : Z)              (* L169-178 *)
| PbAttribute (n : Z)             (* L184-193 *)
| PbSymbolic (s : bytes)          (* L199-209 *)
| PbElement (n : Z)               (* L214-223 *)
| PbPort (n : Z)                  (* L228-237 *)
| PbAddress (n : Z)               (* L241-250 *)
| PbSlot (n : Z)                  (* L255-264 *)
| PbParse (s : bytes).            (* L268-282 *)

Record pb := { pb_buf : bytes; pb_err : bool }.
Definition pb0 := {| pb_buf := []; pb_err := false |}.

Definition pb_write (b : pb) (d : bytes) : pb :=
  {| pb_buf := pb_buf b ++ d; pb_err := pb_err b |}.
Definition pb_fail (b : pb) : pb := {| pb_buf := pb_buf b; pb_err := true |}.

(** Writes into a bytes.Buffer cannot fail.  Symbolic records the error and
    writes the nil slice it got (L203-207). *)
Definition pb_step (b : pb) (c : pb_call) : res pb :=
  if pb_err b then Ok b else
  match c with
  | PbCustom d => Ok (pb_write b d)
  | PbClass n => Ok (pb_write b (class_bytes n))
  | PbInstance n => Ok (pb_write b (instance_bytes n))
  | PbAttribute n => Ok (pb_write b (attribute_bytes n))
  | PbSymbolic s => match marshal_part s with
                    | Ok d => Ok (pb_write b d)
                    | Err _ => Ok (pb_fail b)
                    | Panic => Panic
                    | OutOfFuel => OutOfFuel
                    end
  | PbElement n => Ok (pb_write b (element_bytes n))
  | PbPort n => Ok (pb_write b [n])
  | PbAddress n => Ok (pb_write b (address_bytes n))
  | PbSlot n => Ok (pb_write b [n])
  | PbParse s => match parse_path s with
                 | Ok d => Ok (pb_write b d)
                 | Err _ => Ok (pb_fail b)
                 | Panic => Panic
                 | OutOfFuel => OutOfFuel
                 end
  end.

Fixpoint pb_run (b : pb) (cs : list pb_call) : res pb :=
  match cs with
  | [] => Ok b
  | c :: r => let* b' := pb_step b c in pb_run b' r
  end.
