From Coq Require Import List String Ascii Bool Arith ZArith Reals.
From Verif Require Import Base CymeMapSpec CymeParseModel CymeParseSpec CymeLoadSpec CymeLineModel.
Import ListNotations.
Local Open Scope string_scope.
Local Open Scope nat_scope.
Local Open Scope list_scope.

(** The names of the devices and of the other types of settings. *)
Definition device_name (k : device) : string :=
  match k with Switch => "switch" | Sectionalizer => "sectionalizer" | Fuse => "fuse" | Recloser => "recloser" | Breaker => "breaker" | Protector => "network_protector" end.
(** The phases that are closed, by digit or name. *)
Definition closed_table : list (string * string * list string) :=
  [("0", "none", []); ("0", "NONE", []); ("1", "A", ["A"]); ("2", "B", ["B"]); ("3", "C", ["C"]); ("4", "AB", ["A"; "B"]); ("5", "AC", ["A"; "C"]);
   ("6", "BC", ["B"; "C"]); ("7", "ABC", ["A"; "B"; "C"])].
Definition mutual (p q : string) (m : string) : Prop := In (p, q, m) [("A", "B", "ab"); ("B", "A", "ab"); ("B", "C", "bc"); ("C", "B", "bc"); ("A", "C", "ca"); ("C", "A", "ca")].

Section Spec.
Variable num : string -> option R.
Variable int_ : string -> option Z.
Variable T : tables.
Variable spaced_matrix : CymeParseModel.record -> list string -> res (option matrix).
Notation record := CymeParseModel.record.

Definition cell_says (d : record) (k : string) (o : option R) : Prop := forall x, o = Some x <-> number num d k x.
(** A wire of the conductor or device [c]. *)
Definition wire_says (k : option device) (open : bool) (c : record) (p : string) (w : wire) : Prop :=
  w_phase w = p /\ w_class w = dget c "id" /\ w_kind w = k /\ w_open w = open /\
  cell_says c "diameter" (w_diameter w) /\ cell_says c "gmr" (w_gmr w) /\ cell_says c "amps" (w_ampacity w) /\ cell_says c "withstandrating" (w_emergency w) /\
  (k <> None -> k <> Some Switch -> cell_says c "interruptingrating" (w_interrupting w)) /\ (k = None \/ k = Some Switch -> w_interrupting w = None).

(** ** Sections *)
(** A section with its description, its phases and its feeder. *)
Definition section_says (e : string * record) (id : string) (s : record) (ps : list string) : Prop :=
  (exists k, fst e = (id ++ stars k)%string) /\ bare id /\ dget (t_section_phase T) (lower id) = Some s /\
  exists t, dget s "phase" = Some t /\ ps = map (fun a => String a "") (list_ascii_of_string t).
(** The settings name a node whose name contains "load". *)
Definition at_load (d : record) : Prop :=
  exists f n, dget d "fromnodeid" = Some f /\ (n = f \/ dget d "tonodeid" = Some n) /\ occurs "load" (lower n).
Definition line_common (e : string * record) (id : string) (s : record) (l : line) : Prop :=
  l_name l = lower id /\ l_from l = dget s "fromnodeid" /\ l_to l = dget s "tonodeid" /\
  (forall z, l_from_index l = Some z <-> exists t, dget s "fromnodeindex" = Some t /\ int_ t = Some z) /\
  (forall z, l_to_index l = Some z <-> exists t, dget s "tonodeindex" = Some t /\ int_ t = Some z) /\
  cell_says (snd e) "length" (l_length l) /\ dget (t_section_feeder T) (lower id) = Some (l_feeder l) /\ l_class l = dget (snd e) "eqid".
(** The equipment with the id in the cell [k], or nothing. *)
Definition equipment_says (table : list (string * record)) (d : record) (k : string) (c : record) : Prop :=
  (exists i, dget d k = Some i /\ dget table i = Some c) \/ ((forall i, dget d k = Some i -> dget table i = None) /\ c = []).

(** ** Devices *)
Definition closed_says (d : record) (cs : list string) : Prop :=
  match dget d "closedphase" with
  | None => cs = ["A"; "B"; "C"]
  | Some c => exists a n, In (a, n, cs) closed_table /\ (c = a \/ c = n)
  end.
Definition device_says (e : string * record) (id : string) (s : record) (ps : list string) (k : device) (cs : list string) (l : line) : Prop :=
  line_common e id s l /\ l_kind l = Some k /\ l_type l = None /\ l_matrix l = None /\
  exists c, equipment_says (t_devices T k) (snd e) "eqid" c /\
    (forall v, l_voltage l = Some v <-> exists x, number num c "kvll" x /\ v = (x * 1000)%R) /\
    exists ws wn opens, l_wires l = ws ++ [wn] /\ Forall2 (fun p o => o = true <-> ~ In p cs) ps opens /\
      length ws = length ps /\ (forall i p o w, nth_error ps i = Some p -> nth_error opens i = Some o -> nth_error ws i = Some w -> wire_says (Some k) o c p w) /\
      exists on, (on = true <-> forall p, In p ps -> ~ In p cs) /\ wire_says (Some k) on c "N" wn.

(** ** Lines *)
Definition entries (E : nat -> nat -> R * R -> Prop) (n : nat) (M : matrix) : Prop :=
  length M = n /\ forall i j, i < n -> j < n -> exists row z, nth_error M i = Some row /\ length row = n /\ nth_error row j = Some z /\ E i j z.
(** From the sequence impedances, per kilometre, to ohms per metre. *)
Definition balanced_entry (r1 x1 r0 x0 : R) (i j : nat) (z : R * R) : Prop :=
  if Nat.eqb i j then z = ((2 * r1 + r0) / 3000, (2 * x1 + x0) / 3000)%R else z = ((r0 - r1) / 3000, (x0 - x1) / 3000)%R.
Definition balanced_says (d : record) (n : nat) (m : option matrix) : Prop :=
  (exists r1 x1 r0 x0 M, number num d "r1" r1 /\ number num d "x1" x1 /\ number num d "r0" r0 /\ number num d "x0" x0 /\ m = Some M /\ entries (balanced_entry r1 x1 r0 x0) n M) \/
  (m = None /\ exists k, In k ["r1"; "x1"; "r0"; "x0"] /\ forall x, ~ number num d k x).
(** The columns of the impedance between two phases. *)
Definition columns_of (p q : string) (r x : string) : Prop :=
  (p = q /\ r = ("r" ++ lower p)%string /\ x = ("x" ++ lower p)%string) \/
  (exists m, mutual p q m /\ r = ("mutualresistance" ++ m)%string /\ x = ("mutualreactance" ++ m)%string).
Definition unbalanced_entry (d : record) (ps : list string) (i j : nat) (z : R * R) : Prop :=
  exists p q cr cx r x, nth_error ps i = Some p /\ nth_error ps j = Some q /\ columns_of p q cr cx /\ number num d cr r /\ number num d cx x /\ z = (r / 1000, x / 1000)%R.
Definition unbalanced_says (d : record) (ps : list string) (m : option matrix) : Prop :=
  (exists M, m = Some M /\ entries (unbalanced_entry d ps) (length ps) M) \/
  (m = None /\ exists p q cr cx, In p ps /\ In q ps /\ columns_of p q cr cx /\ ((forall x, ~ number num d cr x) \/ (forall x, ~ number num d cx x))).

(** Wires of the conductors of a line: one for each phase and the neutral ones. *)
Definition wires_say (ps : list string) (conductor : string -> record -> Prop) (neutral : list (string * record)) (ws : list wire) : Prop :=
  exists a b, ws = a ++ b /\ Forall2 (fun p w => exists c, conductor p c /\ wire_says None false c p w) ps a /\ Forall2 (fun nc w => wire_says None false (snd nc) (fst nc) w) neutral b.
Definition balanced_neutral (d : record) (neutral : list (string * record)) : Prop := exists c, equipment_says (t_conductors T) d "neutralcondid" c /\ neutral = [("N", c)].
(** The conductor in the cell [k], unless the cell says none. *)
Definition named (d : record) (k : string) (c : record) : Prop := exists i, dget d k = Some i /\ lower i <> "none" /\ dget (t_conductors T) i = Some c.
Definition unbalanced_conductor (d : record) (p : string) (c : record) : Prop :=
  named d ("condid_" ++ lower p)%string c \/ ((forall c', ~ named d ("condid_" ++ lower p)%string c') /\ c = []).
Inductive unbalanced_neutral (d : record) : list (string * record) -> Prop :=
| neutral_two c1 c2 : named d "condid_n1" c1 -> named d "condid_n2" c2 -> unbalanced_neutral d [("N1", c1); ("N2", c2)]
| neutral_one c : (forall c1 c2, ~ (named d "condid_n1" c1 /\ named d "condid_n2" c2)) -> named d "condid_n" c -> unbalanced_neutral d [("N", c)]
| neutral_first c : (forall c2, ~ named d "condid_n2" c2) -> (forall c', ~ named d "condid_n" c') -> named d "condid_n1" c -> unbalanced_neutral d [("N", c)]
| neutral_none : (forall c, ~ named d "condid_n1" c) -> (forall c, ~ named d "condid_n" c) -> unbalanced_neutral d [].
(** The data of a line with a line or cable id: of the cables, else the concentric ones, else the unbalanced lines, else the balanced ones. *)
Inductive data_says (i : string) : line_data -> Prop :=
| data_cable x : dget (t_cables T) i = Some x -> data_says i (Balanced x)
| data_concentric x : dget (t_cables T) i = None -> dget (t_concentric T) i = Some x -> data_says i (Balanced x)
| data_unbalanced x : dget (t_cables T) i = None -> dget (t_concentric T) i = None -> dget (t_unbalanced T) i = Some x -> data_says i (Unbalanced x)
| data_balanced x : dget (t_cables T) i = None -> dget (t_concentric T) i = None -> dget (t_unbalanced T) i = None -> dget (t_balanced T) i = Some x -> data_says i (Balanced x).
Definition line_kind (d : record) (t : string) : Prop :=
  (dget d "type" = Some "underground" /\ t = "underground") \/ ((dget d "type" = Some "overhead_balanced" \/ dget d "type" = Some "overhead_unbalanced") /\ t = "overhead").
Definition sorted_phases (ps : list string) : Prop := In ps [["A"; "B"]; ["A"; "C"]; ["B"; "C"]; ["A"; "B"; "C"]].
Definition line_says (e : string * record) (id : string) (s : record) (ps : list string) (t : string) (data : line_data) (l : line) : Prop :=
  line_common e id s l /\ l_kind l = None /\ l_type l = Some t /\ l_voltage l = None /\
  match data with
  | Balanced x =>
    (length ps = 2 \/ length ps = 3 -> balanced_says x (length ps) (l_matrix l)) /\
    exists neutral, balanced_neutral x neutral /\ wires_say ps (fun _ => equipment_says (t_conductors T) x "phasecondid") neutral (l_wires l)
  | Unbalanced x =>
    (sorted_phases ps -> unbalanced_says x ps (l_matrix l)) /\
    exists neutral, unbalanced_neutral x neutral /\ wires_say ps (unbalanced_conductor x) neutral (l_wires l)
  | Spaced => False
  end.

(** ** Settings *)
(** What becomes of the settings of a section. *)
Inductive yields (e : string * record) : option line -> Prop :=
| yields_load : at_load (snd e) -> yields e None
| yields_device id s ps k cs l : ~ at_load (snd e) -> section_says e id s ps -> dget (snd e) "type" = Some (device_name k) -> closed_says (snd e) cs -> device_says e id s ps k cs l -> yields e (Some l)
| yields_line id s ps t i data l : ~ at_load (snd e) -> section_says e id s ps -> line_kind (snd e) t -> dget (snd e) "linecableid" = Some i -> data_says i data -> line_says e id s ps t data l -> yields e (Some l)
| yields_nothing : ~ at_load (snd e) -> (forall k, dget (snd e) "type" <> Some (device_name k)) -> (forall i data, dget (snd e) "linecableid" = Some i -> ~ data_says i data) -> yields e None.
(** Settings as the reader makes them, except lines that are given by conductors and a spacing. *)
Definition proper (e : string * record) : Prop :=
  (dget (snd e) "fromnodeid" <> None -> dget (snd e) "tonodeid" <> None) /\
  (exists id s ps f, section_says e id s ps /\ Forall (fun p => In p ["A"; "B"; "C"]) ps /\ dget (t_section_feeder T) (lower id) = Some f) /\
  (dget (snd e) "type" = None \/ (exists k, dget (snd e) "type" = Some (device_name k)) \/ (exists t, line_kind (snd e) t)) /\
  (dget (snd e) "type" = None -> dget (snd e) "linecableid" = None) /\
  (exists cs, closed_says (snd e) cs) /\ dget (snd e) "devicenumber" = None.
(** Equipment without a column for a line or cable id. *)
Definition no_line_ids : Prop := Forall (fun t => forall i x, dget t i = Some x -> dget x "linecableid" = None) [t_balanced T; t_concentric T; t_cables T].
End Spec.
