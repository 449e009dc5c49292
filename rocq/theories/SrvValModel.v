(** * Values in the server's requests and replies (server_connected.go L343-475) *)
From Verif Require Import GoBase ItemsModel TypesModel ReadModel.

(** cipStringPacker.Bytes, L375-397: type segment, length clamped to 82, 82
    characters, two pad bytes. *)
Definition string_packer (s : bytes) : bytes :=
  [0xA0; 0x02; 0xCE; 0x0F] ++ le 4 (if 82 <? len s then 82 else len s) ++ fit 82 s ++ [0; 0].

(** One element of a string write, L450-463. *)
Definition parse_string (r : bytes) : res (gval * bytes) :=
  let* (l, r1) := rd 4 r in
  let* (d, r2) := rd 82 r1 in
  let n := if 82 <? unle l then 82 else unle l in
  Ok (GStr (firstn (Z.to_nat n) d), r2).
Fixpoint parse_strings (n : nat) (r : bytes) : res (list gval * bytes) :=
  match n with
  | O => Ok ([], r)
  | S k => let* (v, r1) := parse_string r in
           let* (vs, r2) := parse_strings k r1 in Ok (v :: vs, r2)
  end.

(** parseWriteValues, L418-475, on the unread bytes of the item. *)
Definition parse_write_values (r : bytes) : res (list gval * bytes) :=
  let* (t, r) := rd 1 r in
  let* (il, r) := rd 1 r in
  let* (info, r) := rd (Z.to_nat (unle il)) r in
  let crc := if (unle t =? T_struct) && (2 <=? len info) then unle (firstn 2 info) else 0 in
  let* (q, r) := rd 2 r in
  let n := Z.to_nat (unle q) in
  if unle t =? T_struct then
    if crc =? 0x0FCE then parse_strings n r else Err EMsg
  else read_values n (unle t) r.
