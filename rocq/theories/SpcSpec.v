(** What the impedance matrix of a line given by a spacing and conductors is to be. *)
From Coq Require Import Reals.
From Verif Require Import Base MatrixSpec ImpedModel SpcModel.
Local Open Scope string_scope.
Local Open Scope list_scope.
Local Open Scope R_scope.

(** A conductor: its place in meters, its geometric mean radius in centimeters and its
    resistance in ohms per kilometer. *)
Record conductor := mkConductor { c_x : R; c_y : R; c_gmr : R; c_r : R }.

(** Distance in meters. *)
Definition between (a b : conductor) : R := sqrt ((c_x a - c_x b) * (c_x a - c_x b) + (c_y a - c_y b) * (c_y a - c_y b)).

(** Carson's equations per mile, with lengths in feet, and the result per meter. *)
Definition self_z (c : conductor) : C :=
  ((c_r c / 0.621371 + 0.0953) / 1609.34, 0.12134 * (ln (1 / (0.0328084 * c_gmr c)) + 7.93402) / 1609.34).
Definition mutual_z (a b : conductor) : C :=
  (0.0953 / 1609.34, 0.12134 * (ln (1 / (3.28084 * between a b)) + 7.93402) / 1609.34).

(** The matrix of a list of conductors. *)
Definition carson_matrix (ws : list conductor) (m : cmat) : Prop :=
  dims m (length ws) (length ws)
  /\ (forall i a, nth_error ws i = Some a -> cell m i i (self_z a))
  /\ (forall i j a b, nth_error ws i = Some a -> nth_error ws j = Some b -> i <> j -> cell m i j (mutual_z a b)).

(** The columns of a place. *)
Definition placed (c : col * col) (w : conductor) : Prop := c = (Num (c_x w), Num (c_y w)).

(** The conductors of the phases, each at the place of its number in the line. *)
Definition phase_wires (cs : conductors) (settings : @dict string) (sp : spacing) (phases : list string)
  (ws : list conductor) : Prop :=
  length ws = length phases
  /\ forall i p w, nth_error phases i = Some p -> nth_error ws i = Some w ->
       placed (sp_cond sp (S i)) w
       /\ exists id, dget settings ("condid_" ++ lower p)%string = Some id /\ dget cs id = Some (c_gmr w, c_r w).

(** The line has a conductor for the neutral, or none. *)
Definition has_neutral (cs : conductors) (settings : @dict string) (gr : R * R) : Prop :=
  (exists id, dget settings "condid_n" = Some id /\ dget cs id = Some gr)
  \/ (dget settings "condid_n" = None
      /\ exists id, dget settings "condid_n1" = Some id /\ lower id <> "none" /\ dget cs id = Some gr).
Definition no_neutral (settings : @dict string) : Prop :=
  dget settings "condid_n" = None
  /\ forall id, dget settings "condid_n1" = Some id -> lower id = "none".

Definition nowhere (c : col * col) : Prop := c = (Absent, Absent).

(** The conductors of a line with at most one neutral: those that have a place. *)
Definition line_wires (cs : conductors) (settings : @dict string) (sp : spacing) (phases : list string)
  (ws : list conductor) : Prop :=
  phases <> [] /\ nowhere (sp_n2 sp)
  /\ exists ph, phase_wires cs settings sp phases ph
     /\ ((exists w, has_neutral cs settings (c_gmr w, c_r w) /\ placed (sp_n1 sp) w /\ ws = ph ++ [w])
         \/ (no_neutral settings /\ (nowhere (sp_n1 sp) \/ exists x y, sp_n1 sp = (Num x, Num y)) /\ ws = ph)
         \/ (exists gr, has_neutral cs settings gr /\ nowhere (sp_n1 sp) /\ ws = ph)).
