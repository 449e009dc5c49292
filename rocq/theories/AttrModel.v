(** * Attribute reads and generic CIP messages (getattr.go) *)
From Verif Require Import GoBase SegModel ItemsModel ReadModel IoiModel.

Definition svc_getattr := 0x0E.
Definition svc_getattrlist := 0x03.

(** items[1] of a reply.  A short result header is an error where [strict]
    (getattr.go L289-293, L452-455) and only logged otherwise (L143-146); a reply
    of fewer than two items panics (L155, L301, L463). *)
Definition second_item (strict : bool) (payload : bytes) : res item :=
  let* r := match rd 6 payload with
            | Ok (_, r) => Ok r
            | Err e => if strict then Err e else Ok []
            | Panic => Panic | OutOfFuel => OutOfFuel
            end in
  let* (its, _) := read_items r in
  match its with _ :: it :: _ => Ok it | _ => Panic end.

(** Sending a request and looking at the second item of the reply; the EIP status
    is not looked at (L139-140, L285, L449). *)
Definition ask {S} (strict : bool) (ctl : controller S) (s : S) (req : bytes) (k : item -> res item) : res item * S :=
  match ctl s req with
  | (Ok (_, payload), s1) => (bind (second_item strict payload) k, s1)
  | (Err e, s1) => (Err e, s1)
  | (Panic, s1) => (Panic, s1)
  | (OutOfFuel, s1) => (OutOfFuel, s1)
  end.

(** GetAttrSingle, getattr.go L101-163: the path length is computed from the Len
    methods, the response header (6 bytes) is read and not looked at. *)
Definition single_request (otid q class inst attr : Z) : bytes :=
  serialize_items
    [ new_item item_connaddr (le 4 otid);
      item_write (item_write (item_write
        (new_item item_conndata (le 2 q ++ [svc_getattr; ((class_len class + instance_len inst + attribute_len attr) / 2) mod 256]))
        (class_bytes class)) (instance_bytes inst)) (attribute_bytes attr) ].
Definition get_attr_single {S} (ctl : controller S) (s : S) (otid q class inst attr : Z) : res item * S * Z :=
  (ask false ctl s (single_request otid q class inst attr)
     (fun it => match item_des 6 it with
                | (Ok _, it') => Ok it'
                | (Err e, _) => Err e | (Panic, _) => Panic | (OutOfFuel, _) => OutOfFuel
                end), q + 1).

(** GetAttrList, L246-318: the status word is looked at, the attribute count
    skipped.  [q] is the client's own sequence number. *)
Definition get_attr_list {S} (ctl : controller S) (s : S) (otid q class inst : Z) (attrs : list Z) : res item * S * Z :=
  let path := class_bytes class ++ instance_bytes inst in
  (ask true ctl s (path_request otid q svc_getattrlist path (le 2 (len attrs) ++ concat (map (le 2) attrs)))
     (fun it => match item_des 6 it with
                | (Ok h, it1) =>
                    if negb (unle (skipn 4 h) =? 0) then Err (EStatus (unle (skipn 4 h))) else
                    match item_int 2 it1 with
                    | (Ok _, it2) => Ok it2
                    | (Err e, _) => Err e | (Panic, _) => Panic | (OutOfFuel, _) => OutOfFuel
                    end
                | (Err e, _) => Err e | (Panic, _) => Panic | (OutOfFuel, _) => OutOfFuel
                end), q + 1).

(** GenericCIPMessage, L421-489.  The reply's service is the low byte of a
    16-bit word with its top bit removed (services.go L23-26). *)
Definition generic {S} (ctl : controller S) (s : S) (otid q service : Z) (path data : bytes) : res item * S * Z :=
  (ask true ctl s (path_request otid q service path data)
     (fun it =>
        let '(r0, i0) := item_int 2 it in
        let* _ := r0 in
        let '(r1, i1) := item_int 2 i0 in
        let* svc := r1 in
        if negb (svc mod 256 mod 128 =? service) then Err EMsg else
        let '(r2, i2) := item_int 2 i1 in
        let* st := r2 in
        if negb (st =? 0) then Err (EStatus st) else Ok i2), q + 1).
