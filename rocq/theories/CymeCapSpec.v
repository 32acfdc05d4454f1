From Coq Require Import List String Ascii Bool Arith ZArith Reals.
From Verif Require Import Base CymeMapSpec CymeParseModel CymeParseSpec CymeLoadSpec CymeCapModel.
Import ListNotations.
Local Open Scope string_scope.
Local Open Scope nat_scope.
Local Open Scope list_scope.

Section Spec.
Variable num : string -> option R.
Variable section_phase : list (string * CymeParseModel.record).
Variable section_feeder : list (string * string).
Variable equipment : list (string * CymeParseModel.record).
Notation record := CymeParseModel.record.

(** The numbers of three cells. *)
Definition three (d : record) (a b c : string) (x y z : R) : Prop := number num d a x /\ number num d b y /\ number num d c z.
(** No power in three cells: one is missing, or none is positive. *)
Definition no_power (d : record) (a b c : string) : Prop :=
  (dget d a = None \/ dget d b = None \/ dget d c = None) \/ (exists x y z, three d a b c x y z /\ x <= 0 /\ y <= 0 /\ z <= 0)%R.
Definition some_power (d : record) (a b c : string) (x y z : R) : Prop := three d a b c x y z /\ (0 < x \/ 0 < y \/ 0 < z)%R.
(** In var, of the phase with this letter. *)
Definition of_phase (p : string) (x y z : R) (v : option R) : Prop :=
  (p = "A" /\ v = Some (x * 1000)%R) \/ (p = "B" /\ v = Some (y * 1000)%R) \/ (p = "C" /\ v = Some (z * 1000)%R) \/ (~ In p ["A"; "B"; "C"] /\ v = None).
(** The number of a cell in thousands, or what there was before. *)
Definition thousands (d : record) (k : string) (before v : option R) : Prop :=
  (exists x, number num d k x /\ v = Some (x * 1000)%R) \/ ((forall x, ~ number num d k x) /\ v = before).
Definition in_equipment (q : option record) (k : string) (v : option R) : Prop := match q with Some q => thousands q k None v | None => v = None end.

(** The reactive power of a phase: the fixed one, else the switched one, else that of the equipment. *)
Inductive power_says (d : record) (q : option record) (p : string) (v : option R) : Prop :=
| says_fixed x y z : some_power d "fixedkvara" "fixedkvarb" "fixedkvarc" x y z -> of_phase p x y z v -> power_says d q p v
| says_switched x y z : no_power d "fixedkvara" "fixedkvarb" "fixedkvarc" -> some_power d "switchedkvara" "switchedkvarb" "switchedkvarc" x y z -> of_phase p x y z v -> power_says d q p v
| says_equipment : no_power d "fixedkvara" "fixedkvarb" "fixedkvarc" -> no_power d "switchedkvara" "switchedkvarb" "switchedkvarc" -> in_equipment q "kvar" v -> power_says d q p v.
(** The cells of the powers are numbers. *)
Definition readable (d : record) : Prop :=
  (no_power d "fixedkvara" "fixedkvarb" "fixedkvarc" \/ exists x y z, some_power d "fixedkvara" "fixedkvarb" "fixedkvarc" x y z) /\
  (no_power d "switchedkvara" "switchedkvarb" "switchedkvarc" \/ exists x y z, some_power d "switchedkvara" "switchedkvarb" "switchedkvarc" x y z).

Definition connection_says (d : record) (c : option string) : Prop :=
  match dget d "connection" with
  | None => c = None
  | Some t => (exists z a n r, In (z, a, n, r) bank_table /\ (t = a \/ t = n) /\ c = Some r) \/
              ((forall z a n r, In (z, a, n, r) bank_table -> t <> a /\ t <> n) /\ c = Some t)
  end.
(** The equipment: of the series capacitor or of the shunt capacitor. *)
Definition equipment_says (d : record) (q : option record) : Prop :=
  match dget d "eqid" with
  | Some i => q = dget equipment i
  | None => match dget d "shuntcapacitorid" with Some i => q = dget equipment i | None => q = None end
  end.
(** The voltage: the rating of the settings, between phases for a delta connection or three phases, to neutral for a wye
    connection or one phase; else that of the equipment. *)
Definition voltage_says (d : record) (q : option record) (c : option string) (n : nat) (v : option R) : Prop :=
  (exists x, number num d "kv" x /\
     (((c = Some "D" \/ n = 3) /\ v = Some (x * 1000 * sqrt 3)%R) \/
      (c <> Some "D" /\ n <> 3 /\ (c = Some "Y" \/ n = 1) /\ v = Some (x * 1000)%R) \/
      (c <> Some "D" /\ n <> 3 /\ c <> Some "Y" /\ n <> 1 /\ in_equipment q "kv" v))) \/
  ((forall x, ~ number num d "kv" x) /\ in_equipment q "kv" v).
Definition capacitor_says (e : string * record) (c : capacitor) : Prop :=
  exists id k s t q, fst e = (id ++ stars k)%string /\ bare id /\
    dget section_phase (lower id) = Some s /\ dget s "phase" = Some t /\
    c_name c = ("Cap_" ++ lower id)%string /\ c_element c = dget s "fromnodeid" /\ dget section_feeder (lower id) = Some (c_feeder c) /\
    connection_says (snd e) (c_connection c) /\ equipment_says (snd e) q /\
    (forall x, c_reactance c = Some x <-> exists q', q = Some q' /\ number num q' "reactance" x) /\
    voltage_says (snd e) q (c_connection c) (String.length t) (c_voltage c) /\
    Forall2 (fun a pv => fst pv = String a "" /\ power_says (snd e) q (fst pv) (snd pv)) (list_ascii_of_string t) (c_phases c).
(** Settings of a section that the network file describes. *)
Definition placed (e : string * record) : Prop :=
  exists id k s t f, fst e = (id ++ stars k)%string /\ bare id /\ dget section_phase (lower id) = Some s /\ dget s "phase" = Some t /\ dget section_feeder (lower id) = Some f.
End Spec.
