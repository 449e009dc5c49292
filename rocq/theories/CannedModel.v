(** * Faults, forces and controller properties (canned, getattr.go) *)
From Verif Require Import GoBase SegModel ItemsModel ReadModel IoiModel AttrModel.

(** item.DeSerialize of a structure of [w] bytes, [k] taking it apart. *)
Definition deserialize {A} (w : nat) (k : bytes -> A) (r : res item) : res A :=
  let* it := r in match fst (item_des w it) with Ok b => Ok (k b) | Err e => Err e | Panic => Panic | OutOfFuel => OutOfFuel end.
(** The number of [w] bytes at offset [o]. *)
Definition num_at (o w : nat) (b : bytes) : Z := unle (firstn w (skipn o b)).

(** ** Faults *)
(** FaultEvent, faults.go L11-16, and FaultSummary, L52-58. *)
Record fault_event := FaultEvent { fe_time : Z; fe_class : Z; fe_code : Z; fe_detail : bytes }.
Record fault_summary := FaultSummary { fs_major : Z; fs_minor : Z; fs_majors : Z; fs_minors : Z; fs_events : list fault_event }.
Definition event_of (b : bytes) : fault_event := FaultEvent (num_at 0 8 b) (num_at 8 2 b) (num_at 10 2 b) (firstn 30 (skipn 12 b)).
Definition summary_of (b : bytes) : fault_summary :=
  FaultSummary (num_at 0 4 b) (num_at 4 4 b) (num_at 8 2 b) (num_at 10 2 b)
    [event_of (skipn 12 b); event_of (skipn 54 b); event_of (skipn 96 b)].
(** GetFaults, L161-180; service 1 is GetAttributeAll (services.go). *)
Definition get_faults {S} (ctl : controller S) (s : S) (otid q : Z) : res fault_summary * S * Z :=
  let '(r, s1, q1) := generic ctl s otid q 0x01 (class_bytes 0x73 ++ instance_bytes 1) [] in
  (deserialize 138 summary_of r, s1, q1).

(** The constants, L60-83: [1 << iota], the first of them FaultType_None. *)
Definition flag (iota : Z) : Z := Z.shiftl 1 iota.
Definition flag_powerup := flag 1.       Definition flag_io := flag 2.             Definition flag_program := flag 3.
Definition flag_watchdog := flag 5.      Definition flag_nvmemory := flag 6.       Definition flag_modechange := flag 7.
Definition flag_serial := flag 8.        Definition flag_energy := flag 9.         Definition flag_motion := flag 10.
Definition flag_redundancy := flag 11.   Definition flag_rtc := flag 12.           Definition flag_nonrecoverable := flag 13.
Definition flag_communication := flag 15. Definition flag_diagnostics := flag 16.  Definition flag_cipmotion := flag 17.
Definition flag_ethernet := flag 18.     Definition flag_license := flag 19.       Definition flag_alarm := flag 20.
Definition flag_opcua := flag 21.
(** The methods, L85-159. *)
Definition is_fault (fl f : Z) : bool := negb (Z.land f fl =? 0).
Inductive fault_kind := Powerup | IO | Program | Watchdog | NVMemory | ModeChange | SerialPort | EnergyStorage | Motion | Redundancy | RTC | NonRecoverable
  | Communication | Diagnostics | CIPMotion | Ethernet | License | Alarm | OPCUA.
Definition fault_method (k : fault_kind) : Z -> bool :=
  is_fault match k with
           | Powerup => flag_powerup | IO => flag_io | Program => flag_program | Watchdog => flag_watchdog | NVMemory => flag_nvmemory
           | ModeChange => flag_modechange | SerialPort => flag_serial | EnergyStorage => flag_energy | Motion => flag_motion
           | Redundancy => flag_redundancy | RTC => flag_rtc | NonRecoverable => flag_nonrecoverable | Communication => flag_communication
           | Diagnostics => flag_diagnostics | CIPMotion => flag_cipmotion | Ethernet => flag_ethernet | License => flag_license
           | Alarm => flag_alarm | OPCUA => flag_opcua
           end.

(** FaultDescriptions, fault_descriptions.go: for every class its codes, with the
    Code field of the entry.  The Type field is the class in every entry.  The texts are left out. *)
Definition fault_table : list (Z * list (Z * Z)) := [
    (1, [(1, 1); (2, 2); (15, 15); (16, 16); (29, 29); (40, 40); (60, 60); (61, 61); (62, 62)]);
    (3, [(0, 0); (1, 1); (16, 16); (20, 20); (21, 21); (23, 23); (32, 32); (94, 94); (100, 100)]);
    (4, [(4, 4); (5, 5); (6, 6); (7, 7); (16, 16); (20, 20); (21, 21); (24, 24); (30, 30); (31, 31); (32, 32); (34, 34);
      (35, 35); (36, 36); (42, 42); (51, 51); (52, 52); (53, 53); (54, 54); (55, 55); (56, 56); (57, 57); (82, 82); (83, 83);
      (84, 84); (85, 85); (86, 86); (87, 87); (88, 88); (89, 89); (90, 90); (91, 91); (94, 94); (990, 990); (991, 991); (992, 992); (993, 993); (994, 994); (995, 995); (996, 996); (997, 997); (998, 998); (999, 999)]);
    (6, [(1, 1); (2, 2); (3, 3)]);
    (7, [(40, 40); (41, 41); (42, 42); (43, 43); (44, 44); (49, 49); (50, 50)]);
    (8, [(1, 1)]);
    (9, [(0, 0); (1, 1); (2, 2); (3, 3); (5, 5); (9, 9); (10, 10); (11, 11)]);
    (10, [(10, 10); (11, 11); (12, 12); (13, 13); (14, 14); (15, 15); (16, 16); (17, 17)]);
    (11, [(1, 1); (2, 2); (3, 3); (4, 4); (5, 5); (6, 6); (7, 7); (8, 8); (9, 9); (10, 10); (11, 11); (12, 12); (13, 13); (14, 14); (15, 15); (16, 16); (32, 32); (33, 33)]);
    (12, [(32, 32); (33, 33); (34, 34)]);
    (13, [(21, 21)]);
    (14, [(1, 1); (2, 2); (3, 3); (4, 4); (5, 5); (6, 6); (7, 7); (8, 8); (9, 9); (10, 10); (11, 11); (12, 12); (13, 13)]);
    (16, [(1, 1)]);
    (17, [(0, 0); (1, 1); (2, 2); (3, 3); (4, 4); (5, 5); (6, 6); (7, 7); (8, 8); (9, 9); (10, 10); (11, 11); (12, 12); (13, 13); (14, 14); (15, 15); (16, 16); (17, 17); (18, 18); (19, 19); (20, 20); (21, 21); (22, 22); (23, 23); (24, 24); (25, 25); (26, 26); (27, 27); (28, 28); (29, 29); (30, 30); (31, 31); (32, 31); (35, 35); (36, 36); (37, 37)]);
    (18, [(1, 1); (2, 2); (3, 3); (4, 4); (5, 5); (6, 6); (7, 7); (8, 8); (9, 9); (10, 10)]);
    (19, [(1, 1); (2, 2); (3, 3); (4, 4)]);
    (20, [(1, 1); (2, 2)]);
    (21, [(1, 1); (2, 2)])
].
(** Description, faults.go L18-44: type and code of the description, and the
    event's detail if it stands in for the text of an entry. *)
Record description := Description { fd_type : Z; fd_code : Z; fd_detail : option bytes }.
Definition lookup {A} (k : Z) (l : list (Z * A)) : option A := match find (fun x => fst x =? k) l with Some x => Some (snd x) | None => None end.
Definition describe (f : fault_event) : description :=
  match lookup (fe_class f) fault_table with
  | None => Description (fe_class f) (fe_code f) (Some (fe_detail f))
  | Some t => match lookup (fe_code f) t with
              | None => Description (fe_class f) (fe_code f) (Some (fe_detail f))
              | Some c => Description (fe_class f) c None
              end
  end.

(** ** Forces, forces.go *)
Definition force_enabled (f : Z) : bool := negb (Z.land f 1 =? 0).
Definition force_exist (f : Z) : bool := negb (Z.land f 1 =? 0).
(** GetForces, L18-41; the status of the attribute is not looked at. *)
Definition get_forces {S} (ctl : controller S) (s : S) (otid q : Z) : res Z * S * Z :=
  let '(r, s1, q1) := get_attr_list ctl s otid q 0x69 0 [9] in
  (deserialize 6 (num_at 4 2) r, s1, q1).

(** ** Controller properties, getattr.go L165-229 *)
Record prop := Prop1 { pr_id : Z; pr_status : Z; pr_value : Z }.
Definition prop_of (o w : nat) (b : bytes) : prop := Prop1 (num_at o 2 b) (num_at (o + 2) 2 b) (num_at (o + 4) w b).
Definition props_of (b : bytes) : list prop := [prop_of 0 2 b; prop_of 6 2 b; prop_of 12 4 b; prop_of 20 4 b; prop_of 28 4 b].
Definition get_props {S} (ctl : controller S) (s : S) (otid q : Z) : res (list prop) * S * Z :=
  let '(r, s1, q1) := get_attr_list ctl s otid q 0xAC 1 [1; 2; 3; 4; 10] in
  (deserialize 36 props_of r, s1, q1).
(** Match, L189-206. *)
Definition same_prop (old new : prop) : bool := (pr_value new =? pr_value old) && (pr_status new =? pr_status old).
Fixpoint props_match (old new : list prop) : bool :=
  match old, new with o :: old, n :: new => same_prop o n && props_match old new | [], [] => true | _, _ => false end.
