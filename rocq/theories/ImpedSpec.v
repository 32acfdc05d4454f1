(** Specification vocabulary for impedances. *)
From Coq Require Import Reals.
From Verif Require Import Base MatrixSpec ImpedModel.
Local Open Scope string_scope.
Local Open Scope list_scope.
Local Open Scope R_scope.

(** The rotation by a third of a turn. *)
Definition alpha : C := (- (1 / 2), sqrt 3 / 2).
Definition alpha2 : C := (- (1 / 2), - (sqrt 3 / 2)).

(** Phase quantities of the sequence quantities (zero, positive, negative). *)
Definition phase_a (s : C * C * C) : C := let '(z, p, n) := s in cadd z (cadd p n).
Definition phase_b (s : C * C * C) : C := let '(z, p, n) := s in cadd z (cadd (cmul alpha2 p) (cmul alpha n)).
Definition phase_c (s : C * C * C) : C := let '(z, p, n) := s in cadd z (cadd (cmul alpha p) (cmul alpha2 n)).

(** Product of one row of three with three values. *)
Definition row3 (r : list C) (x y z : C) : C :=
  cadd (cmul (nth 0 r c0) x) (cadd (cmul (nth 1 r c0) y) (cmul (nth 2 r c0) z)).
Definition row2 (r : list C) (x y : C) : C := cadd (cmul (nth 0 r c0) x) (cmul (nth 1 r c0) y).

(** Position of a phase in the matrices. *)
Definition phase_position (p : string) (i : nat) : Prop :=
  (p = "A" /\ i = 0%nat) \/ (p = "B" /\ i = 1%nat) \/ (p = "C" /\ i = 2%nat) \/ (p = "N" /\ i = 3%nat).

(** The earth-return formula for a geometric mean distance [d]. *)
Definition reactance (freq rho d : R) : R :=
  202237 / 100000000 * freq * (ln (1 / d) + 76786 / 10000 + 1 / 2 * ln (rho / freq)).

(** Self impedance of a wire: 0 when its data are missing. *)
Definition self_impedance (freq rho : R) (w : wire) : C :=
  match w_res w, w_gmr w with
  | Some r, Some g => (r + 158836 / 100000000 * freq, reactance freq rho g)
  | _, _ => c0
  end.

Definition wire_distance (w w' : wire) : option R :=
  match w_x w, w_y w, w_x w', w_y w' with
  | Some x1, Some y1, Some x2, Some y2 => Some (sqrt ((x1 - x2) ^ 2 + (y1 - y2) ^ 2))
  | _, _, _, _ => None
  end.

Definition mutual_impedance (freq rho : R) (w w' : wire) : C :=
  match wire_distance w w' with
  | Some d => (158836 / 100000000 * freq, reactance freq rho d)
  | None => c0
  end.

(** [prim ws i j z]: the impedance between the conductors at positions [i] and [j]. *)
Definition prim (freq rho : R) (ws : list wire) (i j : nat) (z : C) : Prop :=
  (exists w p, In w ws /\ w_phase w = Some p /\ phase_position p i /\ i = j /\ z = self_impedance freq rho w) \/
  (exists w w' p q, In w ws /\ In w' ws /\ w_phase w = Some p /\ w_phase w' = Some q /\
     phase_position p i /\ phase_position q j /\ i <> j /\ z = mutual_impedance freq rho w w') \/
  ((forall w p, In w ws -> w_phase w = Some p -> ~ phase_position p i) /\ z = c0) \/
  ((forall w p, In w ws -> w_phase w = Some p -> ~ phase_position p j) /\ z = c0).

(** The wires that have a phase have distinct ones. *)
Fixpoint named_phases (ws : list wire) : list string :=
  match ws with
  | [] => []
  | w :: t => match w_phase w with Some p => p :: named_phases t | None => named_phases t end
  end.

(** Wire data for which the formulas make sense. *)
Definition good_self (w : wire) : Prop := w_res w = None \/ w_gmr w = None \/ exists g, w_gmr w = Some g /\ 0 < g.
Definition good_pair (w w' : wire) : Prop := wire_distance w w' <> Some 0.
