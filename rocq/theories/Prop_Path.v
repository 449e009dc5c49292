(** * Properties C07, C08: routes and the path builder *)
From Verif Require Import GoBase SegModel IoiModel IoiSpec IoiProof SegSpec PathModel PathSpec PathProof.

(** C07.  A route of plain bytes and port/address hops, written with commas and
    any blanks or brackets, is parsed into exactly its bytes. *)
Theorem C07_route_bytes : forall hs s,
  hs <> [] -> Forall valid_hop hs -> decorated s (route_text hs) ->
  parse_path s = Ok (route_bytes hs).
Proof. exact parse_path_route. Qed.
Print Assumptions C07_route_bytes.

(** Without addresses: either all parts are numerals of bytes and those bytes
    are returned, or an error is. *)
Theorem C07_bad_element_is_error : forall s parts, s <> [] -> plain_parts s parts ->
  (exists ns, Forall2 (fun p n => numeral p n /\ 0 <= n <= 255) parts ns /\ parse_path s = Ok ns) \/
  ((~ exists ns, Forall2 (fun p n => numeral p n /\ 0 <= n <= 255) parts ns) /\ parse_path s = Err EMsg).
Proof. exact parse_path_plain. Qed.
Print Assumptions C07_bad_element_is_error.

(** "Never panics" is false: a route that starts with an address panics ... *)
Theorem C07_never_panics_refuted : exists s, parse_path s = Panic.
Proof. exists (str "192.168.1.10,1,0"). vm_compute. reflexivity. Qed.
Print Assumptions C07_never_panics_refuted.

(** ... and that is the only way it can. *)
Theorem C07_panics_only_on_leading_address_partial : forall s,
  parse_path s = Panic <-> s <> [] /\ In 46 (hd [] (split 44 (strip s))).
Proof. exact parse_path_panic_iff. Qed.
Print Assumptions C07_panics_only_on_leading_address_partial.

Example ex_C07 :
  let hs := [Plain 1; Plain 0; Ext 2 (str "172.25.58.11"); Plain 1; Plain 1] in
  hs <> [] /\ Forall valid_hop hs /\
  strip (str "[1, 0], 2,172.25.58.11 ,1,1") = route_text hs /\
  parse_path (str "[1, 0], 2,172.25.58.11 ,1,1") = Ok (route_bytes hs).
Proof.
  split; [discriminate|]. split; [|vm_compute; repeat split; reflexivity].
  repeat apply Forall_cons; try apply Forall_nil; cbn [valid_hop]; try lia.
  split; [lia|]. split; [vm_compute; tauto|]. split; [vm_compute; discriminate|].
  apply Forall_forall. intros c I. vm_compute in I. unfold addr_char. lia.
Qed.
(** (Every string is a decoration of its stripped form.) *)
Example ex_C07_decorated : forall s, decorated s (strip s).
Proof. exact strip_is_decorated. Qed.

(** C08.  A chain of valid calls yields the concatenation of the segments. *)
Theorem C08_builder_concatenates : forall cs ds, Forall2 denotes cs ds ->
  pb_run pb0 cs = Ok {| pb_buf := concat ds; pb_err := false |}.
Proof. exact (fun cs ds H => pb_run_valid cs ds H pb0 eq_refl). Qed.
Print Assumptions C08_builder_concatenates.

(** An invalid call anywhere leaves the error set and nothing added after. *)
Theorem C08_builder_keeps_first_error : forall before bad after ds,
  Forall2 denotes before ds -> invalid bad ->
  pb_run pb0 (before ++ bad :: after) = Ok {| pb_buf := concat ds; pb_err := true |}.
Proof. exact (fun b bad a ds H I => pb_run_invalid b bad a ds H I pb0 eq_refl). Qed.
Print Assumptions C08_builder_keeps_first_error.

Example ex_C08 :
  Forall2 denotes [PbSymbolic (str "MyTag"); PbElement 300; PbClass 0x6B; PbInstance 70000]
    [symbol_segment (str "MyTag"); elem_segment 300; class_segment 0x6B; instance_segment 70000] /\
  invalid (PbParse (str "1, 256")) /\
  pb_run pb0 [PbClass 2; PbParse (str "1, 256"); PbInstance 1] =
  Ok {| pb_buf := [0x20; 2]; pb_err := true |}.
Proof.
  split; [|split].
  - constructor; [apply den_symbol, valid_nameb_sound; vm_compute; reflexivity|].
    constructor; [apply den_element; lia|]. constructor; [apply den_class; lia|].
    constructor; [apply den_instance; lia|constructor].
  - apply (inv_parse (str "1, 256") [str "1"; str "256"]).
    + discriminate.
    + split; [discriminate|]. split; [exact (strip_is_decorated (str "1, 256"))|].
      constructor; [|constructor; [|constructor]].
      * split; [vm_compute; lia|]. apply Forall_forall. intros c I. vm_compute in I. unfold addr_char. lia.
      * split; [vm_compute; lia|]. apply Forall_forall. intros c I. vm_compute in I. unfold addr_char. lia.
    + intros (ns & F). inversion F as [|? ? ? ? _ F1]; subst.
      inversion F1 as [|? n ? ? [N R] F2]; subst.
      assert (A : atoi (str "256") = (n, true))
        by (apply atoi_numeral; split; [exact N|unfold int_min, int_max; lia]).
      vm_compute in A. injection A as <-. lia.
  - vm_compute. reflexivity.
Qed.
