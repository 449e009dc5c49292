(** * Faults, forces and controller properties as a controller reports them *)
From Verif Require Import GoBase CannedModel.

(** A fault event and a fault summary on the wire. *)
Definition event_wire (e : fault_event) : bytes := le 8 (fe_time e) ++ le 2 (fe_class e) ++ le 2 (fe_code e) ++ fe_detail e.
Definition event_ok (e : fault_event) : Prop :=
  0 <= fe_time e < 2 ^ 64 /\ 0 <= fe_class e < 2 ^ 16 /\ 0 <= fe_code e < 2 ^ 16 /\ length (fe_detail e) = 30%nat /\ bytes_ok (fe_detail e).
Definition summary_wire (f : fault_summary) : bytes :=
  le 4 (fs_major f) ++ le 4 (fs_minor f) ++ le 2 (fs_majors f) ++ le 2 (fs_minors f) ++ concat (map event_wire (fs_events f)).
Definition summary_ok (f : fault_summary) : Prop :=
  0 <= fs_major f < 2 ^ 32 /\ 0 <= fs_minor f < 2 ^ 32 /\ 0 <= fs_majors f < 2 ^ 16 /\ 0 <= fs_minors f < 2 ^ 16 /\
  length (fs_events f) = 3%nat /\ Forall event_ok (fs_events f).

(** The numbers of the fault types, as in FaultDescriptions (1 is Power Up, 3 I/O,
    4 Program, ...); a controller sets bit n for a fault of type n. *)
Definition type_number (k : fault_kind) : Z :=
  match k with
  | Powerup => 1 | IO => 3 | Program => 4 | Watchdog => 6 | NVMemory => 7 | ModeChange => 8 | SerialPort => 9 | EnergyStorage => 10 | Motion => 11
  | Redundancy => 12 | RTC => 13 | NonRecoverable => 14 | Communication => 16 | Diagnostics => 17 | CIPMotion => 18 | Ethernet => 19 | License => 20
  | Alarm => 21 | OPCUA => 22
  end.
Definition reports (k : fault_kind) (f : Z) : bool := Z.testbit f (type_number k).

(** A list of attributes: identifier, status and value of every one; the values
    are two, two, four, four and four bytes long. *)
Definition prop_wire (wp : nat * prop) : bytes := le 2 (pr_id (snd wp)) ++ le 2 (pr_status (snd wp)) ++ le (fst wp) (pr_value (snd wp)).
Definition prop_ok (wp : nat * prop) : Prop :=
  0 <= pr_id (snd wp) < 2 ^ 16 /\ 0 <= pr_status (snd wp) < 2 ^ 16 /\ 0 <= pr_value (snd wp) < 2 ^ (8 * Z.of_nat (fst wp)).
Definition widths : list nat := [2; 2; 4; 4; 4]%nat.
Definition props_wire (ps : list prop) : bytes := concat (map prop_wire (combine widths ps)).
Definition props_ok (ps : list prop) : Prop := length ps = 5%nat /\ Forall prop_ok (combine widths ps) /\ map pr_id ps = [1; 2; 3; 4; 10].
