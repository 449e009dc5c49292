(** * Properties C10-C13: item lists, the item cursor, string slots *)
From Verif Require Import GoBase ItemsModel ItemsSpec ItemsProof.

(** C10.  Serialising any list of items that fits the 16-bit fields and parsing
    the bytes after the 6-byte prefix gives the same ids and data in order and
    leaves what follows unread.  [mk] is newItem on an id and its bytes. *)
Theorem C10_items_round_trip : forall l rest, fits l ->
  exists body, serialize_items (map mk l) = zeros 6 ++ body /\ body = wire_list l /\
  exists its, read_items (body ++ rest) = Ok (its, rest) /\
    map (fun it => (it_id it, it_data it)) its = l /\
    Forall (fun it => it_len it = len (it_data it) /\ it_pos it = 0) its.
Proof. exact C10_lemma. Qed.
Print Assumptions C10_items_round_trip.

(** The same for items filled by any number of writes: what is recovered is
    everything written, in order. *)
Theorem C10_written_items : forall (l : list (Z * list bytes)) rest,
  let whole := map (fun '(id, ps) => (id, concat ps)) l in fits whole ->
  exists body, serialize_items (map (fun '(id, ps) => fold_left item_write ps (item_empty id)) l) = zeros 6 ++ body /\
  exists its, read_items (body ++ rest) = Ok (its, rest) /\
    map (fun it => (it_id it, it_data it)) its = whole.
Proof.
  intros l rest whole F.
  destruct (C10_items_round_trip whole rest F) as (body & S & _ & its & R & M & _).
  exists body. split; [|now exists its].
  rewrite <- S. f_equal. unfold whole. rewrite map_map. apply map_ext. intros [id ps].
  assert (G : forall ps it, it_len it = len (it_data it) mod 65536 ->
    fold_left item_write ps it =
    {| it_id := it_id it; it_len := len (it_data it ++ concat ps) mod 65536; it_data := it_data it ++ concat ps; it_pos := it_pos it |}).
  { induction ps0 as [|p q IH]; intros it E; cbn [fold_left concat].
    - rewrite app_nil_r, <- E. now destruct it.
    - rewrite IH by reflexivity. cbn [it_id it_data it_pos item_write]. now rewrite <- app_assoc. }
  rewrite G by reflexivity. reflexivity.
Qed.
Print Assumptions C10_written_items.
Example ex_C10_written : fits (map (fun '(id, ps) => (id, concat ps)) [(0xB1, [[1]; [2; 3]; []; [4]]); (0xB2, [])]).
Proof. split; [vm_compute; reflexivity|]. repeat constructor; vm_compute; discriminate. Qed.

Example ex_C10 : let l := [(0xA1, [1;2;3;4]); (0xB1, []); (0xB2, [7])] in
  fits l /\ is_ok (read_items (wire_list l ++ [9; 9])) = true.
Proof.
  split; [|vm_compute; reflexivity]. split; [vm_compute; reflexivity|].
  repeat constructor; vm_compute; discriminate.
Qed.

(** Outside the 16-bit limit the round trip fails: the length field wraps. *)
Theorem C10_oversize_item_refuted : exists d, len d = 2 ^ 16 /\
  forall its rest, read_items (skipn 6 (serialize_items [mk (0xB1, d)])) = Ok (its, rest) ->
  map it_data its <> [d].
Proof. exact oversize_refuted. Qed.
Print Assumptions C10_oversize_item_refuted.

(** C11.  Arbitrary bytes: an error, or items that account for every consumed
    byte; never a panic. *)
Theorem C11_item_parsing_safe : forall r, bytes_ok r ->
  match read_items r with
  | Ok (its, rest) =>
      r = le 2 (len its) ++ concat (map item_bytes its) ++ rest /\
      Forall (fun it => it_len it = len (it_data it) /\ it_pos it = 0) its
  | Err _ => True
  | _ => False
  end.
Proof. exact C11_lemma. Qed.
Print Assumptions C11_item_parsing_safe.

Example ex_C11 : bytes_ok [1;0; 0xB1;0; 2;0; 7;8; 5] /\
  exists it, read_items [1;0; 0xB1;0; 2;0; 7;8; 5] = Ok ([it], [5]) /\ it_data it = [7;8].
Proof. split; [repeat constructor; unfold byte_ok; lia|]. eexists. split; vm_compute; reflexivity. Qed.

(** C12.  Any sequence of typed reads, Rest and Reset. *)
Theorem C12_cursor_exact : forall id l data os, bytes_ok data ->
  exists rs u, fst (cur_run {| it_id := id; it_len := l; it_data := data; it_pos := 0 |} os) = rs /\
    reads data data os rs u /\ ~ In RPanic rs.
Proof. exact C12_lemma. Qed.
Print Assumptions C12_cursor_exact.

(** The specification admits only one list of results. *)
Theorem C12_results_determined : forall data u os rs1 v1, reads data u os rs1 v1 ->
  forall rs2 v2, reads data u os rs2 v2 -> rs1 = rs2 /\ v1 = v2.
Proof. exact reads_det. Qed.
Print Assumptions C12_results_determined.

Example ex_C12 :
  fst (cur_run {| it_id := 0; it_len := 0; it_data := [0xFF; 0xFF; 1; 2; 3]; it_pos := 0 |}
        [CI16; CU32; CU16; CRest; CByte; CByte; CReset; CByte]) =
  [RNum (-1); RFail; RNum 0x201; RBytes [3]; RNum 3; RFail; RDone; RNum 255].
Proof. vm_compute. reflexivity. Qed.

(** C13.  List elements: always truthful. *)
Theorem C13_string_lists_truthful : forall l, Forall (fun s => len s < 2 ^ 32) l ->
  exists xs, ser_strings l = concat (map slot_wire xs) /\ Forall2 truthful xs l.
Proof. exact ser_strings_truthful. Qed.
Print Assumptions C13_string_lists_truthful.

(** Single strings: truthful up to 84 characters ... *)
Theorem C13_string_truthful_partial : forall s, len s <= 84 ->
  exists x, ser_string s = slot_wire x /\ truthful x s.
Proof. exact ser_string_truthful. Qed.
Print Assumptions C13_string_truthful_partial.

(** ... beyond that the length field claims more than the slot carries. *)
Theorem C13_string_truthful_refuted : exists s,
  len (ser_string s) = 88 /\ unle (firstn 4 (ser_string s)) = 100 /\
  forall x, ser_string s = slot_wire x -> 0 <= slot_len x < 2 ^ 32 -> ~ truthful x s.
Proof.
  exists (repeat 65 100). split; [vm_compute; reflexivity|]. split; [vm_compute; reflexivity|].
  intros x E R (_ & B & _).
  assert (X : unle (firstn 4 (ser_string (repeat 65 100))) = 100) by (vm_compute; reflexivity).
  rewrite E in X. unfold slot_wire in X. rewrite firstn_app_exact in X by apply le_length.
  rewrite unle_le_small in X by (change (256 ^ Z.of_nat 4) with (2 ^ 32); lia). lia.
Qed.
Print Assumptions C13_string_truthful_refuted.

Example ex_C13 : len (str "hello") <= 84 /\
  firstn 12 (ser_string (str "hello")) = [5;0;0;0;104;101;108;108;111;0;0;0] /\
  len (ser_strings [str "a"; str "bc"]) = 2 * 88.
Proof. vm_compute. repeat split; discriminate. Qed.
