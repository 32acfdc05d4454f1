(** What the impedances of a list of wires are to be. *)
From Coq Require Import Reals.
From Verif Require Import Base MatrixSpec ImpedModel PhZModel.
Local Open Scope list_scope.
Local Open Scope R_scope.

(** A distance in meters between each two wires, the same both ways. *)
Definition spaced (ws : list phwire) (dist : list (list R)) (d : nat -> nat -> R) : Prop :=
  dims dist (length ws) (length ws)
  /\ (forall i j, (i < length ws)%nat -> (j < length ws)%nat -> cell dist i j (d i j))
  /\ (forall i j, (i < length ws)%nat -> (j < length ws)%nat -> i <> j -> 0 < d i j /\ d i j = d j i).

(** The reactance of Carson's equation, for a radius or distance in feet: ohms per mile. *)
Definition carson_x (ft : R) : R := 0.12134 * (ln (1 / ft) + 7.93402).

(** The part of the resistance that is due to the ground: ohms per mile. *)
Definition ground_r : R := 0.0953.

(** All attributes of the wires that the computation needs, in meters, feet and miles. *)
Record wire_data := mkWireData {
  wd_gmr : R;        (* of the conductor, in meters *)
  wd_r : R;          (* of the conductor, in ohms per meter *)
  wd_strands : nat;  (* of the neutral *)
  wd_gmr_s : R;      (* of a strand, in meters *)
  wd_r_s : R;        (* of a strand, in ohms per meter *)
  wd_radius : R }.   (* of the circle of strands, in meters *)

(** [w] has these attributes. *)
Definition cable_of (w : phwire) (k : wire_data) : Prop :=
  p_gmr w = Some (wd_gmr k) /\ p_r w = Some (wd_r k) /\ cn_strands w = Some (wd_strands k)
  /\ cn_gmr w = Some (wd_gmr_s k) /\ cn_r w = Some (wd_r_s k)
  /\ (exists a b, cn_diameter w = Some a /\ cn_outside w = Some b /\ wd_radius k = (b - a) / 2)
  /\ (0 < wd_strands k)%nat /\ 0 < wd_gmr k /\ 0 < wd_gmr_s k /\ 0 < wd_radius k.

(** Geometric mean radius of [n] strands on a circle, in feet. *)
Definition strands_gmr (k : wire_data) : R :=
  Rpower (3.28084 * wd_gmr_s k * INR (wd_strands k) * (3.28084 * wd_radius k) ^ (wd_strands k - 1)) (1 / INR (wd_strands k)).

(** Impedances per mile of [n] cables, of which conductor [i] is a phase conductor for
    [i < n], and else the neutral of cable [i - n]; [rp] is the resistance per mile of
    the phase conductors. *)
Definition cables_z (n : nat) (d : nat -> nat -> R) (k : nat -> wire_data) (rp : wire_data -> R) (i j : nat) : C :=
  let c i := if (i <? n)%nat then i else (i - n)%nat in
  if (i =? j)%nat then
    if (i <? n)%nat then (rp (k i) + ground_r, carson_x (3.28084 * wd_gmr (k i)))
    else (wd_r_s (k (c i)) / 0.000621371 / INR (wd_strands (k (c i))) + ground_r, carson_x (strands_gmr (k (c i))))
  else if (c i =? c j)%nat then (ground_r, carson_x (3.28084 * wd_radius (k (c i))))
  else (ground_r, carson_x (3.28084 * d (c i) (c j))).
